(** Model of src/ModelScriptDsl.cc (the tokenizer and parser of model script sources) and
    src/ModelScript.cc (compiled model scripts).

    The tokenizer's line and column only appear in messages and are left out, and so are the
    messages.  Loops that need not end take a number of steps, [fuel]; running out of it is
    the outcome [Fuel].  A loop that really does not end is one that runs out of every amount. *)

From Verif Require Import MBase MStream MBoxes MText MVfs.
Local Open Scope N_scope.
Local Open Scope m_scope.

(* ------------------------------------------------------------------ *)
(** * Values *)

(** ModelScript.hh:13-37 *)
Inductive etype :=
| E_UNKNOWN | E_ITEM_CREATE | E_ITEM_INSERT | E_ITEM_REMOVE | E_ITEM_DESTROY | E_ITEM_PLACE | E_ITEM_EXCHANGE
| E_SET_FIGHT_MODE | E_MUNITION_PLACE | E_MUNITION_REMOVE | E_SOUND_DRAW | E_SOUND_UNDRAW | E_MESH_SWAP
| E_TORCH_DRAW | E_TORCH_INVENTORY | E_TORCH_DROP | E_HIT_LIMB | E_HIT_DIRECTION | E_DAMAGE_MULTIPLIER
| E_PARRY_FRAME | E_OPTIMAL_FRAME | E_HIT_END | E_COMBO_WINDOW.

(** ModelScript.hh:65-73 *)
Definition FM_FIST : N := 0.
Definition FM_SINGLE_HANDED : N := 1.
Definition FM_DUAL_HANDED : N := 2.
Definition FM_BOW : N := 3.
Definition FM_CROSSBOW : N := 4.
Definition FM_MAGIC : N := 5.
Definition FM_NONE : N := 6.

(** ModelScript.hh:120-123 *)
Record mds_skeleton := mkMdsSkel { sk_name : bytes; sk_disable_mesh : bool }.
(** ModelScript.hh:133-142 *)
Record mds_tag := mkMdsTag { tg_frame : Z; tg_type : etype; tg_slot : bytes; tg_slot2 : bytes; tg_item : bytes;
  tg_frames : list Z; tg_fight_mode : N; tg_attached : bool }.
(** ModelScript.hh:146-152 *)
Record mds_pfx := mkMdsPfx { px_frame : Z; px_index : Z; px_name : bytes; px_position : bytes; px_attached : bool }.
(** ModelScript.hh:156-162 *)
Record mds_tremor := mkMdsTremor { tr_frame : Z; tr_field1 : Z; tr_field2 : Z; tr_field3 : Z; tr_field4 : Z }.
(** ModelScript.hh:166-169 *)
Record mds_pfx_stop := mkMdsPfxStop { ps_frame : Z; ps_index : Z }.
(** ModelScript.hh:173-187 *)
Record mds_sfx := mkMdsSfx { sx_frame : Z; sx_name : bytes; sx_range : N; sx_empty_slot : bool }.
(** ModelScript.hh:191-195 *)
Record mds_morph := mkMdsMorph { mp_frame : Z; mp_animation : bytes; mp_node : bytes }.

(** ModelScript.hh:200-223; [float]s are bit patterns. *)
Record mds_ani := mkMdsAni { an_name : bytes; an_layer : N; an_next : bytes; an_blend_in : N; an_blend_out : N;
  an_flags : N; an_model : bytes; an_backward : bool; an_first_frame : Z; an_last_frame : Z;
  an_fps : N; an_speed : N; an_cvs : N;
  an_events : list mds_tag; an_pfx : list mds_pfx; an_pfx_stop : list mds_pfx_stop; an_sfx : list mds_sfx;
  an_sfx_ground : list mds_sfx; an_morph : list mds_morph; an_tremors : list mds_tremor }.
(** ModelScript.hh:227-236 *)
Record mds_alias := mkMdsAlias { al_name : bytes; al_layer : N; al_next : bytes; al_blend_in : N; al_blend_out : N;
  al_flags : N; al_alias : bytes; al_backward : bool }.
(** ModelScript.hh:240-245 *)
Record mds_blend := mkMdsBlend { bl_name : bytes; bl_next : bytes; bl_blend_in : N; bl_blend_out : N }.
(** ModelScript.hh:249-258 *)
Record mds_comb := mkMdsComb { cb_name : bytes; cb_layer : N; cb_next : bytes; cb_blend_in : N; cb_blend_out : N;
  cb_flags : N; cb_model : bytes; cb_last_frame : Z }.

(** ModelScript.hh:272-285; a model tag is its bone (ModelScript.hh:127-129). *)
Record mscript := mkMs { ms_skeleton : mds_skeleton; ms_meshes : list bytes; ms_disabled : list bytes;
  ms_combinations : list mds_comb; ms_blends : list mds_blend; ms_aliases : list mds_alias; ms_tags : list bytes;
  ms_animations : list mds_ani }.
Definition mscript_new : mscript := mkMs (mkMdsSkel [] false) [] [] [] [] [] [] [].

Definition with_skeleton (s : mscript) (k : mds_skeleton) : mscript :=
  mkMs k (ms_meshes s) (ms_disabled s) (ms_combinations s) (ms_blends s) (ms_aliases s) (ms_tags s) (ms_animations s).
Definition push_mesh (s : mscript) (m : bytes) : mscript :=
  mkMs (ms_skeleton s) (ms_meshes s ++ [m]) (ms_disabled s) (ms_combinations s) (ms_blends s) (ms_aliases s) (ms_tags s) (ms_animations s).
Definition push_disabled (s : mscript) (m : bytes) : mscript :=
  mkMs (ms_skeleton s) (ms_meshes s) (ms_disabled s ++ [m]) (ms_combinations s) (ms_blends s) (ms_aliases s) (ms_tags s) (ms_animations s).
Definition push_comb (s : mscript) (c : mds_comb) : mscript :=
  mkMs (ms_skeleton s) (ms_meshes s) (ms_disabled s) (ms_combinations s ++ [c]) (ms_blends s) (ms_aliases s) (ms_tags s) (ms_animations s).
Definition push_blend (s : mscript) (b : mds_blend) : mscript :=
  mkMs (ms_skeleton s) (ms_meshes s) (ms_disabled s) (ms_combinations s) (ms_blends s ++ [b]) (ms_aliases s) (ms_tags s) (ms_animations s).
Definition push_alias (s : mscript) (a : mds_alias) : mscript :=
  mkMs (ms_skeleton s) (ms_meshes s) (ms_disabled s) (ms_combinations s) (ms_blends s) (ms_aliases s ++ [a]) (ms_tags s) (ms_animations s).
Definition push_tag (s : mscript) (t : bytes) : mscript :=
  mkMs (ms_skeleton s) (ms_meshes s) (ms_disabled s) (ms_combinations s) (ms_blends s) (ms_aliases s) (ms_tags s ++ [t]) (ms_animations s).
Definition with_animations (s : mscript) (l : list mds_ani) : mscript :=
  mkMs (ms_skeleton s) (ms_meshes s) (ms_disabled s) (ms_combinations s) (ms_blends s) (ms_aliases s) (ms_tags s) l.
Definition push_ani (s : mscript) (a : mds_ani) : mscript := with_animations s (ms_animations s ++ [a]).

(** The seven lists of events of an animation. *)
Inductive mevent :=
| VTag (e : mds_tag) | VPfx (e : mds_pfx) | VPfxStop (e : mds_pfx_stop) | VSfx (e : mds_sfx) | VSfxGround (e : mds_sfx)
| VMorph (e : mds_morph) | VTremor (e : mds_tremor).
Definition push_event (a : mds_ani) (e : mevent) : mds_ani :=
  mkMdsAni (an_name a) (an_layer a) (an_next a) (an_blend_in a) (an_blend_out a) (an_flags a) (an_model a) (an_backward a)
    (an_first_frame a) (an_last_frame a) (an_fps a) (an_speed a) (an_cvs a)
    (match e with VTag t => an_events a ++ [t] | _ => an_events a end)
    (match e with VPfx t => an_pfx a ++ [t] | _ => an_pfx a end)
    (match e with VPfxStop t => an_pfx_stop a ++ [t] | _ => an_pfx_stop a end)
    (match e with VSfx t => an_sfx a ++ [t] | _ => an_sfx a end)
    (match e with VSfxGround t => an_sfx_ground a ++ [t] | _ => an_sfx_ground a end)
    (match e with VMorph t => an_morph a ++ [t] | _ => an_morph a end)
    (match e with VTremor t => an_tremors a ++ [t] | _ => an_tremors a end).

(* ------------------------------------------------------------------ *)
(** * Words and numbers *)

(** ModelScript.cc:49-74 *)
Definition event_types : list (bytes * etype) :=
  [ (lit "DEF_CREATE_ITEM", E_ITEM_CREATE); (lit "DEF_INSERT_ITEM", E_ITEM_INSERT); (lit "DEF_REMOVE_ITEM", E_ITEM_REMOVE);
    (lit "DEF_DESTROY_ITEM", E_ITEM_DESTROY); (lit "DEF_PLACE_ITEM", E_ITEM_PLACE); (lit "DEF_EXCHANGE_ITEM", E_ITEM_EXCHANGE);
    (lit "DEF_FIGHTMODE", E_SET_FIGHT_MODE); (lit "DEF_PLACE_MUNITION", E_MUNITION_PLACE);
    (lit "DEF_REMOVE_MUNITION", E_MUNITION_REMOVE); (lit "DEF_DRAWSOUND", E_SOUND_DRAW); (lit "DEF_UNDRAWSOUND", E_SOUND_UNDRAW);
    (lit "DEF_SWAPMESH", E_MESH_SWAP); (lit "DEF_DRAWTORCH", E_TORCH_DRAW); (lit "DEF_INV_TORCH", E_TORCH_INVENTORY);
    (lit "DEF_DROP_TORCH", E_TORCH_DROP); (lit "DEF_HIT_LIMB", E_HIT_LIMB); (lit "HIT_LIMB", E_HIT_LIMB);
    (lit "DEF_HIT_DIR", E_HIT_DIRECTION); (lit "DEF_DIR", E_HIT_DIRECTION); (lit "DEF_DAM_MULTIPLY", E_DAMAGE_MULTIPLIER);
    (lit "DEF_PAR_FRAME", E_PARRY_FRAME); (lit "DEF_OPT_FRAME", E_OPTIMAL_FRAME); (lit "DEF_HIT_END", E_HIT_END);
    (lit "DEF_WINDOW", E_COMBO_WINDOW) ].
(** ModelScript.cc:85-90, 304-309 *)
Fixpoint event_type_in (t : list (bytes * etype)) (s : bytes) : etype :=
  match t with
  | [] => E_UNKNOWN
  | (k, v) :: t' => if bytes_eqb s k then v else event_type_in t' s
  end.
Definition event_type (s : bytes) : etype := event_type_in event_types s.

(** ModelScript.cc:103-117, 322-336 *)
Definition fight_mode (m : bytes) : N :=
  if bytes_eqb m (lit "FIST") then FM_FIST
  else if bytes_eqb m (lit "1H") || bytes_eqb m (lit "1h") then FM_SINGLE_HANDED
  else if bytes_eqb m (lit "2H") || bytes_eqb m (lit "2h") then FM_DUAL_HANDED
  else if bytes_eqb m (lit "BOW") then FM_BOW
  else if bytes_eqb m (lit "CBOW") then FM_CROSSBOW
  else if bytes_eqb m (lit "MAG") then FM_MAGIC
  else FM_NONE.

(** ModelScript.cc:150-179 with the values of ModelScript.hh:86-93. *)
Definition flag_of (c : byte) : N :=
  if beq c x4d then 1 else if beq c x52 then 2 else if beq c x45 then 4
  else if beq c x46 then 8 else if beq c x49 then 16 else if beq c x50 then 32 else 0.
Definition flags_of (s : bytes) : N := fold_left (fun f c => N.lor f (flag_of c)) s 0.

(** [std::istringstream] holding the rest of its text, with the states [eofbit], [failbit]. *)
Record istream := mkIs { is_rest : bytes; is_eof : bool; is_fail : bool }.
Definition is_of (s : bytes) : istream := mkIs s false false.
(** [stream >> int32]: a stream that is not good is left alone (and fails).  White space is
    skipped; when nothing follows, the value is untouched.  With no digits the value is 0,
    outside [int] the nearest [int]; both fail.  Reaching the end of the text sets [eofbit]. *)
Definition is_int (st : istream) (v : Z) : Z * istream :=
  if is_eof st || is_fail st then (v, mkIs (is_rest st) (is_eof st) true)
  else
    let s1 := drop_while is_ws (is_rest st) in
    match s1 with
    | [] => (v, mkIs [] true true)
    | _ =>
        let (neg, s2) := scan_sign s1 in
        let rest := drop_while is_digit s2 in
        let e := match rest with [] => true | _ => false end in
        match take_while is_digit s2 with
        | [] => (0%Z, mkIs rest e true)
        | ds =>
            let z := if neg then (- Z.of_N (digits_val ds))%Z else Z.of_N (digits_val ds) in
            if (z <? - 2 ^ 31)%Z then ((- 2 ^ 31)%Z, mkIs rest e true)
            else if (2 ^ 31 <=? z)%Z then ((2 ^ 31 - 1)%Z, mkIs rest e true)
            else (z, mkIs rest e false)
        end
    end.
(** ModelScript.cc:135-139 (stops at a failure) and 365-369 (does not). *)
Fixpoint frame_list (fuel : nat) (stop_at_fail : bool) (st : istream) (v : Z) : outcome (list Z) :=
  if is_eof st || (stop_at_fail && is_fail st) then Ret []
  else
    match fuel with
    | O => Fuel
    | S f => let (v', st') := is_int st v in
             obind (frame_list f stop_at_fail st' v') (fun l => Ret (v' :: l))
    end.

Definition opt_text (a : option bytes) : bytes := match a with Some s => s | None => [] end.
(** ModelScript.cc:77-148 *)
Definition make_event_tag (frame : Z) (type : bytes) (a b : option bytes) (attached : bool) : outcome mds_tag :=
  let ty := event_type type in
  match ty with
  | E_ITEM_CREATE | E_ITEM_EXCHANGE => Ret (mkMdsTag frame ty (opt_text a) [] (opt_text b) [] FM_NONE attached)
  | E_ITEM_INSERT | E_MUNITION_PLACE => Ret (mkMdsTag frame ty (opt_text a) [] [] [] FM_NONE attached)
  | E_SET_FIGHT_MODE => Ret (mkMdsTag frame ty [] [] [] [] (fight_mode (opt_text a)) attached)
  | E_MESH_SWAP => Ret (mkMdsTag frame ty (opt_text a) (opt_text b) [] [] FM_NONE attached)
  | E_HIT_LIMB => Ret (mkMdsTag frame ty (opt_text a) [] [] [] FM_NONE attached)
  | E_DAMAGE_MULTIPLIER | E_PARRY_FRAME | E_OPTIMAL_FRAME | E_HIT_END | E_COMBO_WINDOW =>
      obind (frame_list (S (length (opt_text a))) true (is_of (opt_text a)) 0%Z) (fun l =>
      Ret (mkMdsTag frame ty [] [] [] l FM_NONE attached))
  | _ => Ret (mkMdsTag frame ty [] [] [] [] FM_NONE attached)
  end.

(* ------------------------------------------------------------------ *)
(** * The tokenizer *)

(** ModelScriptDsl.hh:14-26; parentheses never occur as tokens. *)
Inductive token := TKeyword | TInteger | TFloat | TString | TRbrace | TLbrace | TColon | TEof | TNothing.
Definition token_eqb (a b : token) : bool :=
  match a, b with
  | TKeyword, TKeyword | TInteger, TInteger | TFloat, TFloat | TString, TString | TRbrace, TRbrace
  | TLbrace, TLbrace | TColon, TColon | TEof, TEof | TNothing, TNothing => true
  | _, _ => false
  end.

(** ModelScriptDsl.hh:56-60: the buffer and [_m_mark]; [_m_value] is part of the result. *)
Record tks := mkTk { tk_r : rstate; tk_mark : N }.
Definition on_r {A} (m : rd A) : M tks A := fun t =>
  match m (tk_r t) with
  | Ret (a, r) => Ret (a, mkTk r (tk_mark t))
  | Throw e => Throw e
  | Undef => Undef
  | Fuel => Fuel
  end.
Definition set_mark (n : N) : M tks unit := fun t => Ret (tt, mkTk (tk_r t) n).

(** [std::isalpha], [std::isalnum] in the "C" locale. *)
Definition is_alpha (c : byte) : bool :=
  ((65 <=? b2n c) && (b2n c <=? 90)) || ((97 <=? b2n c) && (b2n c <=? 122)).
Definition is_alnum (c : byte) : bool := is_alpha c || is_digit c.
(** ModelScriptDsl.cc:41 *)
Definition tk_skip (c : byte) : bool := is_ws c || beq c x28 || beq c x29 || beq c x3b.
(** ModelScriptDsl.cc:66 *)
Definition tk_word_start (c : byte) : bool := is_alpha c || beq c x2a || beq c x5f || beq c x2e.
(** ModelScriptDsl.cc:71 *)
Definition tk_word (c : byte) : bool := is_alnum c || beq c x5f || beq c x2d || beq c x2e.
(** ModelScriptDsl.cc:111 *)
Definition tk_number_start (c : byte) : bool := is_digit c || beq c x2d.

(** ModelScriptDsl.cc:57-58, 158-160 *)
Fixpoint tk_line (fuel : nat) : rd unit :=
  match fuel with
  | O => fuelout
  | S f => let* c := read_char in if beq c x0a then ret tt else tk_line f
  end.
(** ModelScriptDsl.cc:67-71; the last character read was [c]. *)
Fixpoint tk_word_rest (fuel : nat) (c : byte) (acc : bytes) : rd bytes :=
  match fuel with
  | O => fuelout
  | S f => let acc := acc ++ [c] in
           let* c' := read_char in
           if tk_word c' then tk_word_rest f c' acc else ret acc
  end.
(** ModelScriptDsl.cc:92-98: the text, the last character that is not white space, and the
    character that ended the text. *)
Fixpoint tk_string_rest (fuel : nat) (c : byte) (acc : bytes) (prev : byte) : rd (bytes * byte * byte) :=
  match fuel with
  | O => fuelout
  | S f =>
      if beq c x22 || beq c x0a then ret (acc, prev, c)
      else let* c' := read_char in
           tk_string_rest f c' (acc ++ [c]) (if is_ws c then prev else c)
  end.
(** ModelScriptDsl.cc:114-127 *)
Fixpoint tk_number_rest (fuel : nat) (c : byte) (acc : bytes) (fl : bool) : rd (bytes * bool) :=
  match fuel with
  | O => fuelout
  | S f =>
      let acc := acc ++ [c] in
      let* c1 := read_char in
      let* x := (if beq c1 x2e then let* c2 := read_char in ret (acc ++ [c1], true, c2) else ret (acc, fl, c1)) in
      let '(acc', fl', c') := x in
      if is_digit c' then tk_number_rest f c' acc' fl' else ret (acc', fl')
  end.

(** ModelScriptDsl.cc:31-152 *)
Fixpoint tk_next (fuel : nat) : M tks (token * bytes) :=
  match fuel with
  | O => fuelout
  | S f =>
      let* e := on_r rd_eof in
      if e then ret (TEof, [])
      else
        let* m := on_r rd_tell in
        set_mark m ;;
        let* c := on_r read_char in
        if tk_skip c then tk_next f
        else if beq c x2f then on_r read_char ;; on_r (tk_line f) ;; tk_next f
        else if tk_word_start c then
          let* v := on_r (tk_word_rest f c []) in
          on_r (rd_seek (-1) CUR) ;;
          ret (TKeyword, v)
        else if beq c x22 then
          let* c1 := on_r read_char in
          let* x := on_r (tk_string_rest f c1 [] x00) in
          let '(v, prev, last) := x in
          (if beq last x22 then ret tt else on_r (rd_seek (-1) CUR)) ;;
          ret (TString, if beq prev x29 then removelast v else v)
        else if tk_number_start c then
          let* x := on_r (tk_number_rest f c [] false) in
          on_r (rd_seek (-1) CUR) ;;
          ret (if snd x then TFloat else TInteger, fst x)
        else if beq c x7b then ret (TLbrace, [])
        else if beq c x7d then ret (TRbrace, [])
        else if beq c x3a then ret (TColon, [])
        else ret (TNothing, [])
  end.
(** ModelScriptDsl.cc:162-164 *)
Definition tk_backtrack : M tks unit := fun t => on_r (rd_seek (Z.of_N (tk_mark t)) BEG) t.

(* ------------------------------------------------------------------ *)
(** * The parser: common functionality *)

(** [std::stoi], [std::stof] without a [try]: [std::invalid_argument] escapes. *)
Definition uncaught {A} (o : outcome A) : M tks A := fun t =>
  match o with
  | Ret a => Ret (a, t)
  | Throw ParserError => Throw OtherExn
  | Throw e => Throw e
  | Undef => Undef
  | Fuel => Fuel
  end.

(** [std::string::find(sub) != npos] *)
Fixpoint contains (p s : bytes) : bool :=
  starts_with p s || match s with [] => false | _ :: s' => contains p s' end.

Section Parser.
(** Steps granted to every call of the tokenizer and to every loop of the parser. *)
Variable F : nat.

(** ModelScriptDsl.cc:248-256; gives the token's value when it matches. *)
Definition p_maybe (k : token) : M tks (option bytes) :=
  let* x := tk_next F in
  if token_eqb (fst x) k then ret (Some (snd x)) else tk_backtrack ;; ret None.
(** ModelScriptDsl.cc:178-184 *)
Definition p_expect (k : token) : M tks bytes :=
  let* o := p_maybe k in match o with Some v => ret v | None => throw ScriptSyntaxError end.
(** ModelScriptDsl.cc:201-207 *)
Definition p_expect_word (w : bytes) : M tks unit :=
  let* v := p_expect TKeyword in if iequals v w then ret tt else throw ScriptSyntaxError.
(** ModelScriptDsl.cc:284-295 *)
Definition p_maybe_word (w : bytes) : M tks bool :=
  let* o := p_maybe TKeyword in
  match o with
  | None => ret false
  | Some v => if iequals v w then ret true else tk_backtrack ;; ret false
  end.
(** ModelScriptDsl.cc:217-220 *)
Definition p_expect_int : M tks Z := let* v := p_expect TInteger in uncaught (stoi v).
(** ModelScriptDsl.cc:258-264 *)
Definition p_maybe_int : M tks (option Z) :=
  let* o := p_maybe TInteger in
  match o with None => ret None | Some v => let* z := uncaught (stoi v) in ret (Some z) end.
(** ModelScriptDsl.cc:266-274 *)
Definition p_maybe_number : M tks (option N) :=
  let* x := tk_next F in
  match fst x with
  | TInteger | TFloat => let* v := uncaught (stof (snd x)) in ret (Some v)
  | _ => tk_backtrack ;; ret None
  end.
(** ModelScriptDsl.cc:209-215 *)
Definition p_expect_number : M tks N :=
  let* o := p_maybe_number in match o with Some v => ret v | None => throw ScriptSyntaxError end.
(** ModelScriptDsl.cc:297-309 *)
Definition p_maybe_named (w : bytes) : M tks (option N) :=
  let* b := p_maybe_word w in
  if b then p_expect TColon ;; let* v := p_expect_number in ret (Some v) else ret None.
(** ModelScriptDsl.cc:222-228 *)
Definition p_expect_flags : M tks N :=
  let* v := p_expect TKeyword in p_maybe TColon ;; ret (flags_of v).
(** ModelScriptDsl.cc:230-246; the value is not used by the only caller. *)
Definition p_maybe_flags : M tks unit :=
  let* o := p_maybe TKeyword in
  match o with
  | None => ret tt
  | Some v => if contains (lit "ani") v || contains (lit "model") v then tk_backtrack else p_maybe TColon ;; ret tt
  end.

Definition f_1000 : N := 1148846080.
Definition f_25 : N := 1103626240.
Definition f_1 : N := 1065353216.
Definition opt_or {A} (o : option A) (d : A) : A := match o with Some a => a | None => d end.

(* ------------------------------------------------------------------ *)
(** * The parser: commands *)

(** ModelScriptDsl.cc:342-347 *)
Definition p_meshAndTree : M tks mds_skeleton :=
  let* n := p_expect TString in
  let* d := p_maybe_word (lit "DONT_USE_MESH") in
  ret (mkMdsSkel n d).

(** ModelScriptDsl.cc:412-414 *)
Fixpoint p_ignore_block (n : nat) : M tks unit :=
  match n with
  | O => fuelout
  | S n' => let* x := tk_next F in
            match fst x with TRbrace => ret tt | _ => p_ignore_block n' end
  end.

(** ModelScriptDsl.cc:416-423 *)
Definition p_eventTag : M tks mds_tag :=
  let* fr := p_maybe_int in
  let* ty := p_expect TString in
  let* a := p_maybe TString in
  let* b := p_maybe TString in
  let* at_ := p_maybe_word (lit "ATTACH") in
  uncaught (make_event_tag (opt_or fr 0%Z) ty a b at_).
(** ModelScriptDsl.cc:425-434 *)
Definition p_eventSFX : M tks mds_sfx :=
  let* fr := p_expect_int in
  let* n := p_expect TString in
  let* r := p_maybe_named (lit "R") in
  let* e1 := p_maybe_word (lit "EMPTY_SLOT") in
  let* e := (if e1 then ret true else p_maybe_word (lit "EMTPY_SLOT")) in
  ret (mkMdsSfx fr n (opt_or r f_1000) e).
(** ModelScriptDsl.cc:436-450 *)
Definition p_eventPFX : M tks mds_pfx :=
  let* fr := p_expect_int in
  let* ix := p_maybe_int in
  let* n := p_expect TString in
  let* p := p_expect TString in
  let* a1 := p_maybe_word (lit "ATTACH") in
  let* a := (if a1 then ret true else let* o := p_maybe TString in ret (match o with Some _ => true | None => false end)) in
  ret (mkMdsPfx fr (opt_or ix 0%Z) n p a).
(** ModelScriptDsl.cc:452-459 *)
Definition p_eventSFXGrnd : M tks mds_sfx :=
  let* fr := p_expect_int in
  let* n := p_expect TString in
  p_maybe_word (lit "EMPTY_SLOT") ;;
  ret (mkMdsSfx fr n f_1000 false).
(** ModelScriptDsl.cc:461-466 *)
Definition p_eventPFXStop : M tks mds_pfx_stop :=
  let* fr := p_expect_int in
  let* ix := p_expect_int in
  ret (mkMdsPfxStop fr ix).
(** ModelScriptDsl.cc:468-474 *)
Definition p_eventMMStartAni : M tks mds_morph :=
  let* fr := p_expect_int in
  let* a := p_expect TString in
  let* n := p_maybe TString in
  ret (mkMdsMorph fr a (opt_text n)).
(** ModelScriptDsl.cc:476-484 *)
Definition p_eventCamTremor : M tks mds_tremor :=
  let* fr := p_expect_int in
  let* f1 := p_expect_int in
  let* f2 := p_expect_int in
  let* f3 := p_expect_int in
  let* f4 := p_expect_int in
  ret (mkMdsTremor fr f1 f2 f3 f4).

(** ModelScriptDsl.cc:389-402; [None]: the keyword is not one of an event. *)
Definition p_event (kw : bytes) : option (M tks mevent) :=
  if iequals kw (lit "*eventTag") then Some (let* e := p_eventTag in ret (VTag e))
  else if iequals kw (lit "*eventSFX") then Some (let* e := p_eventSFX in ret (VSfx e))
  else if iequals kw (lit "*eventSFXGrnd") then Some (let* e := p_eventSFXGrnd in ret (VSfxGround e))
  else if iequals kw (lit "*eventPFX") then Some (let* e := p_eventPFX in ret (VPfx e))
  else if iequals kw (lit "*eventPFXStop") then Some (let* e := p_eventPFXStop in ret (VPfxStop e))
  else if iequals kw (lit "*eventMMStartAni") then Some (let* e := p_eventMMStartAni in ret (VMorph e))
  else if iequals kw (lit "*eventCamTremor") then Some (let* e := p_eventCamTremor in ret (VTremor e))
  else None.

(** ModelScriptDsl.cc:320, 357, 384: [maybe<RBRACE>() || maybe<END_OF_FILE>()]. *)
Definition p_block_end : M tks bool :=
  let* a := p_maybe TRbrace in
  match a with
  | Some _ => ret true
  | None => let* b := p_maybe TEof in ret (match b with Some _ => true | None => false end)
  end.

(** ModelScriptDsl.cc:382-410 *)
Fixpoint p_events (n : nat) (a : mds_ani) : M tks mds_ani :=
  match n with
  | O => fuelout
  | S n' =>
      let* e := on_r rd_eof in
      if e then ret a
      else
        let* z := p_block_end in
        if z then ret a
        else
          let* kw := p_expect TKeyword in
          match p_event kw with
          | Some p => let* ev := p in p_events n' (push_event a ev)
          | None => tk_backtrack ;; ret a
          end
  end.

(** ModelScriptDsl.cc:486-515 *)
Definition p_ani : M tks mds_ani :=
  let* name := p_expect TString in
  let* layer := p_expect_int in
  let* next := p_expect TString in
  let* bi := p_expect_number in
  let* bo := p_expect_number in
  let* fl := p_expect_flags in
  let* model := p_expect TString in
  let* kw := p_expect TKeyword in
  (if iequals kw (lit "F") || iequals kw (lit "R") then ret tt else throw ScriptSyntaxError) ;;
  let* first := p_expect_int in
  let* last := p_expect_int in
  let* fps := p_maybe_named (lit "FPS") in
  let* cvs := p_maybe_named (lit "CVS") in
  p_maybe TLbrace ;;
  p_events F (mkMdsAni name (uint 32 layer) next bi bo fl model (iequals kw (lit "R")) first last
                (opt_or fps f_25) 0 (opt_or cvs f_1) [] [] [] [] [] [] []).

(** ModelScriptDsl.cc:517-534 *)
Definition p_aniComb : M tks mds_comb :=
  let* name := p_expect TString in
  let* layer := p_expect_int in
  let* next := p_expect TString in
  let* bi := p_expect_number in
  let* bo := p_expect_number in
  let* fl := p_expect_flags in
  let* model := p_expect TString in
  let* last := p_expect_int in
  let* b := p_maybe TLbrace in
  (match b with Some _ => p_ignore_block F | None => ret tt end) ;;
  ret (mkMdsComb name (uint 32 layer) next bi bo fl model last).

(** ModelScriptDsl.cc:536-554 *)
Definition p_aniAlias : M tks mds_alias :=
  let* name := p_expect TString in
  let* layer := p_expect_int in
  let* next := p_expect TString in
  let* bi := p_expect_number in
  let* bo := p_expect_number in
  let* fl := p_expect_flags in
  let* alias := p_expect TString in
  let* f := p_maybe_word (lit "F") in
  let* r := (if f then ret false else p_maybe_word (lit "R")) in
  ret (mkMdsAlias name (uint 32 layer) next bi bo fl alias r).

(** ModelScriptDsl.cc:556-573 *)
Definition p_aniBlend : M tks mds_blend :=
  let* name := p_expect TString in
  p_maybe_int ;;
  let* next := p_expect TString in
  let* bi := p_maybe_number in
  let* bo := p_maybe_number in
  p_maybe_flags ;;
  let* b := p_maybe TLbrace in
  (match b with Some _ => p_ignore_block F | None => ret tt end) ;;
  ret (mkMdsBlend name next (opt_or bi 0) (opt_or bo 0)).

(** ModelScriptDsl.cc:579-589 *)
Definition p_modelTag : M tks bytes :=
  let* type := p_expect TString in
  (if iequals type (lit "DEF_HIT_LIMB") then ret tt else throw ScriptSyntaxError) ;;
  p_expect TString.

(** ModelScriptDsl.cc:361-378 *)
Definition p_enum_command (s : mscript) (kw : bytes) : M tks mscript :=
  if iequals kw (lit "ani") then let* a := p_ani in ret (push_ani s a)
  else if iequals kw (lit "aniBlend") then let* b := p_aniBlend in ret (push_blend s b)
  else if iequals kw (lit "aniAlias") then let* a := p_aniAlias in ret (push_alias s a)
  else if iequals kw (lit "aniComb") then let* c := p_aniComb in ret (push_comb s c)
  else if iequals kw (lit "aniDisable") then let* d := p_expect TString in ret (push_disabled s d)
  else if iequals kw (lit "modelTag") then let* t := p_modelTag in ret (push_tag s t)
  else on_r (tk_line F) ;; ret s.

(** ModelScriptDsl.cc:356-379 *)
Fixpoint p_enum (n : nat) (s : mscript) : M tks mscript :=
  match n with
  | O => fuelout
  | S n' =>
      let* e := on_r rd_eof in
      if e then ret s
      else
        let* z := p_block_end in
        if z then ret s
        else
          let* kw := p_expect TKeyword in
          let* s' := p_enum_command s kw in
          p_enum n' s'
  end.
(** ModelScriptDsl.cc:353-380 *)
Definition p_aniEnum (s : mscript) : M tks mscript := p_expect TLbrace ;; p_enum F s.

(** ModelScriptDsl.cc:319-337 *)
Fixpoint p_commands (n : nat) (s : mscript) : M tks mscript :=
  match n with
  | O => fuelout
  | S n' =>
      let* e := on_r rd_eof in
      if e then ret s
      else
        let* z := p_block_end in
        if z then ret s
        else
          let* kw := p_expect TKeyword in
          if iequals kw (lit "meshAndTree") then let* k := p_meshAndTree in p_commands n' (with_skeleton s k)
          else if iequals kw (lit "registerMesh") then let* m := p_expect TString in p_commands n' (push_mesh s m)
          else if iequals kw (lit "aniEnum") then let* s' := p_aniEnum s in p_commands n' s'
          else ret s
  end.
(** ModelScriptDsl.cc:313-340 *)
Definition p_script (s : mscript) : M tks mscript :=
  p_expect_word (lit "Model") ;;
  p_expect TString ;;
  p_expect TLbrace ;;
  p_commands F s.
End Parser.

(** ModelScript.cc:452-455, with a number of steps. *)
Definition mds_source (fuel : nat) (s : mscript) : rd mscript := fun r =>
  match p_script fuel s (mkTk r 0) with
  | Ret (s', t) => Ret (s', tk_r t)
  | Throw e => Throw e
  | Undef => Undef
  | Fuel => Fuel
  end.

(* ------------------------------------------------------------------ *)
(** * Compiled scripts *)

(** ModelScript.cc:14-47 *)
Definition B_ROOT : N := 61440.
Definition B_SOURCE : N := 61696.
Definition B_END : N := 65535.
Definition B_MESH_AND_TREE : N := 62208.
Definition B_REGISTER_MESH : N := 62464.
Definition B_ANIMATION : N := 62752.
Definition B_ALIAS : N := 62768.
Definition B_BLEND : N := 62784.
Definition B_COMBINE : N := 62832.
Definition B_DISABLE : N := 62848.
Definition B_MODEL_TAG : N := 62864.
Definition B_EVENTS : N := 62880.
Definition B_SFX : N := 62881.
Definition B_SFX_GROUND : N := 62882.
Definition B_TAG : N := 62883.
Definition B_PFX : N := 62884.
Definition B_PFX_STOP : N := 62885.
Definition B_MM_ANI : N := 62889.
Definition B_TREMOR : N := 62890.

(** [s.find('R') == 0] *)
Definition begins_R (s : bytes) : bool := match s with c :: _ => beq c x52 | [] => false end.

(** ModelScript.cc:200-214 *)
Definition b_animation : rd mds_ani :=
  let* name := read_line false in
  let* layer := read_uint in
  let* next := read_line false in
  let* bi := read_float in
  let* bo := read_float in
  let* fl := read_line false in
  let* model := read_line false in
  let* dir := read_line false in
  let* first := read_int in
  let* last := read_int in
  let* fps := read_float in
  let* speed := read_float in
  let* cvs := read_float in
  ret (mkMdsAni name layer next bi bo (flags_of fl) model (begins_R dir) first last fps speed cvs [] [] [] [] [] [] []).
(** ModelScript.cc:220-229 *)
Definition b_alias : rd mds_alias :=
  let* name := read_line false in
  let* layer := read_uint in
  let* next := read_line false in
  let* bi := read_float in
  let* bo := read_float in
  let* fl := read_line false in
  let* alias := read_line false in
  let* dir := read_line false in
  ret (mkMdsAlias name layer next bi bo (flags_of fl) alias (begins_R dir)).
(** ModelScript.cc:234-238 *)
Definition b_blend : rd mds_blend :=
  let* name := read_line false in
  let* next := read_line false in
  let* bi := read_float in
  let* bo := read_float in
  ret (mkMdsBlend name next bi bo).
(** ModelScript.cc:243-251 *)
Definition b_combine : rd mds_comb :=
  let* name := read_line false in
  let* layer := read_uint in
  let* next := read_line false in
  let* bi := read_float in
  let* bo := read_float in
  let* fl := read_line false in
  let* model := read_line false in
  let* last := read_int in
  ret (mkMdsComb name layer next bi bo (flags_of fl) model last).
(** ModelScript.cc:259-264 *)
Definition b_tremor : rd mds_tremor :=
  let* fr := read_int in
  let* f1 := read_int in
  let* f2 := read_int in
  let* f3 := read_int in
  let* f4 := read_int in
  ret (mkMdsTremor fr f1 f2 f3 f4).
(** ModelScript.cc:269-273, 278-282 *)
Definition b_sfx : rd mds_sfx :=
  let* fr := read_int in
  let* n := read_line false in
  let* r := read_float in
  let* e := read_uint in
  ret (mkMdsSfx fr n r (negb (e =? 0))).
(** ModelScript.cc:287-295 *)
Definition b_model_tag : rd bytes :=
  let* _ := read_int in
  let* _ := read_line false in
  read_line true.
(** ModelScript.cc:300-374 *)
Definition b_tag : rd mds_tag :=
  let* fr := read_int in
  let* tn := read_line false in
  let ty := event_type tn in
  match ty with
  | E_ITEM_CREATE | E_ITEM_EXCHANGE =>
      let* a := read_line true in let* b := read_line true in ret (mkMdsTag fr ty a [] b [] FM_NONE false)
  | E_ITEM_INSERT | E_MUNITION_PLACE => let* a := read_line true in ret (mkMdsTag fr ty a [] [] [] FM_NONE false)
  | E_SET_FIGHT_MODE => let* a := read_line true in ret (mkMdsTag fr ty [] [] [] [] (fight_mode a) false)
  | E_MESH_SWAP =>
      let* a := read_line true in let* b := read_line true in ret (mkMdsTag fr ty a b [] [] FM_NONE false)
  | E_HIT_LIMB | E_HIT_DIRECTION | E_SOUND_DRAW | E_SOUND_UNDRAW | E_MUNITION_REMOVE | E_ITEM_DESTROY
  | E_TORCH_INVENTORY | E_ITEM_REMOVE =>
      let* a := read_line true in ret (mkMdsTag fr ty a [] [] [] FM_NONE false)
  | E_DAMAGE_MULTIPLIER | E_PARRY_FRAME | E_OPTIMAL_FRAME | E_HIT_END | E_COMBO_WINDOW =>
      let* a := read_line true in
      let* l := lift (frame_list (S (length a)) false (is_of a) 0%Z) in
      ret (mkMdsTag fr ty [] [] [] l FM_NONE false)
  | _ => ret (mkMdsTag fr ty [] [] [] [] FM_NONE false)
  end.
(** ModelScript.cc:380-385 *)
Definition b_pfx : rd mds_pfx :=
  let* fr := read_int in
  let* ix := read_int in
  let* n := read_line false in
  let* p := read_line false in
  let* a := read_uint in
  ret (mkMdsPfx fr ix n p (negb (a =? 0))).
(** ModelScript.cc:390-392 *)
Definition b_pfx_stop : rd mds_pfx_stop :=
  let* fr := read_int in let* ix := read_int in ret (mkMdsPfxStop fr ix).
(** ModelScript.cc:397-402 *)
Definition b_morph : rd mds_morph :=
  let* fr := read_int in
  let* a := read_line false in
  let* n := read_line false in
  let* _ := read_float in
  let* _ := read_float in
  ret (mkMdsMorph fr a n).

(** [script.animations[ani_index].<list>.push_back(...)]; an index past the end is undefined. *)
Definition set_at {A} (l : list A) (i : nat) (a : A) : list A := firstn i l ++ a :: skipn (S i) l.
Definition add_event (s : mscript) (ix : N) (e : mevent) : outcome mscript :=
  if ix <? len (ms_animations s) then
    match nth_error (ms_animations s) (N.to_nat ix) with
    | Some a => Ret (with_animations s (set_at (ms_animations s) (N.to_nat ix) (push_event a e)))
    | None => Undef
    end
  else Undef.

(** ModelScript.cc:187-433; the state is the script and [ani_index]. *)
Definition b_chunk (ty : N) (st : mscript * N) : rd (bool * (mscript * N)) :=
  let (s, ix) := st in
  let ev (p : rd mevent) := (let* e := p in let* s' := lift (add_event s ix e) in ret (false, (s', ix))) in
  if ty =? B_MESH_AND_TREE then
    let* d := read_uint in let* n := read_line false in ret (false, (with_skeleton s (mkMdsSkel n (negb (d =? 0))), ix))
  else if ty =? B_REGISTER_MESH then let* n := read_line true in ret (false, (push_mesh s n, ix))
  else if ty =? B_ANIMATION then let* a := b_animation in ret (false, (push_ani s a, u32 (ix + 1)))
  else if ty =? B_ALIAS then let* a := b_alias in ret (false, (push_alias s a, ix))
  else if ty =? B_BLEND then let* b := b_blend in ret (false, (push_blend s b, ix))
  else if ty =? B_COMBINE then let* c := b_combine in ret (false, (push_comb s c, ix))
  else if ty =? B_DISABLE then let* d := read_line false in ret (false, (push_disabled s d, ix))
  else if ty =? B_TREMOR then ev (let* e := b_tremor in ret (VTremor e))
  else if ty =? B_SFX then ev (let* e := b_sfx in ret (VSfx e))
  else if ty =? B_SFX_GROUND then ev (let* e := b_sfx in ret (VSfxGround e))
  else if ty =? B_MODEL_TAG then let* t := b_model_tag in ret (false, (push_tag s t, ix))
  else if ty =? B_TAG then ev (let* e := b_tag in ret (VTag e))
  else if ty =? B_PFX then ev (let* e := b_pfx in ret (VPfx e))
  else if ty =? B_PFX_STOP then ev (let* e := b_pfx_stop in ret (VPfxStop e))
  else if ty =? B_MM_ANI then ev (let* e := b_morph in ret (VMorph e))
  else if ty =? B_ROOT then let* _ := read_uint in let* _ := read_line false in ret (false, (s, ix))
  else if ty =? B_SOURCE then let* _ := date_load in let* _ := read_line false in ret (false, (s, ix))
  else if ty =? B_EVENTS then let* _ := read_uint in ret (false, (s, ix))
  else ret (false, (s, ix)).
(** ModelScript.cc:182-185 *)
Definition mds_binary (s : mscript) : rd mscript := fun r =>
  bind (read_chunked (S (N.to_nat (len (rdata r) - rpos r))) b_chunk (s, 2 ^ 32 - 1)) (fun x => ret (fst x)) r.

(** ModelScript.cc:436-446 *)
Definition mds_load (fuel : nat) (s : mscript) : rd mscript :=
  let* ty := read_ushort in
  rd_seek (-2) CUR ;;
  if (61440 <=? ty) || (ty =? 53248) then mds_binary s else mds_source fuel s.
