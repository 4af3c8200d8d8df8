(** The texture loader as a program over any reader; see MSource. *)

From Verif Require Import MBase MStream SStream MTexture MSource.
Local Open Scope N_scope.

Fixpoint pmap {A B} (f : A -> rprog B) (l : list A) : rprog (list B) :=
  match l with
  | [] => pret []
  | a :: l' => pbind (f a) (fun b => pbind (pmap f l') (fun bs => pret (b :: bs)))
  end.
(** Stream.cc:91-96 [read_string] of a length below 2^63; Texture.cc:308-309: one [read] into
    zeros. *)
Definition praw (n : N) : rprog bytes := pget n (fun b => b).
(** Texture.cc:300-303 *)
Definition pcolor : rprog color :=
  pbind pubyte (fun b => pbind pubyte (fun g => pbind pubyte (fun r => pbind pubyte (fun a => pret (mkColor a r g b))))).
(** Texture.cc:280-317 *)
Definition ptex_load (t : texture) : rprog texture :=
  pbind (praw 4) (fun sig =>
  if negb (bytes_eqb sig (lit "ZTEX")) then PEnd (Throw ParserError) else
  pbind puint (fun v =>
  if negb (v =? 0) then PEnd (Throw ParserError) else
  pbind puint (fun fmt =>
  pbind puint (fun w =>
  pbind puint (fun h =>
  pbind puint (fun c =>
  pbind puint (fun rw =>
  pbind puint (fun rh =>
  pbind puint (fun avg =>
  pbind (if fmt =? P8 then prep 256 pcolor else pret (tx_palette t)) (fun pal =>
  pbind (pmap (fun l => praw (mipmap_size fmt w h l)) (levels_down (N.max 1 c))) (fun maps =>
  pret (mkTex fmt pal w h rw rh (N.max 1 c) avg (tx_maps t ++ maps))))))))))))).
