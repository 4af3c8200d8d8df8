(** The font loader (src/Font.cc) as a program over any reader; see MSource. *)

From Verif Require Import MBase MStream MModel MSource.
Local Open Scope N_scope.

(** Font.cc:15-35 *)
Definition pfont_load (fuel : nat) : rprog font :=
  pbind (pline fuel ws_chars) (fun version =>
  if negb (bytes_eqb version (lit "1")) then PEnd (Throw ParserError) else
  pbind (pline fuel []) (fun name =>
  pbind puint (fun height =>
  pbind puint (fun n =>
  pbind (prep (N.to_nat n) pubyte) (fun ws =>
  pbind (prep (N.to_nat n) pvec2) (fun a =>
  pbind (prep (N.to_nat n) pvec2) (fun b =>
  pret (mkFont name height (zip_glyphs ws a b))))))))).
