(** Error.cc, Error.hh: the exceptions of the library and what they say. *)

From Verif Require Import MBase MStream MText.
Local Open Scope N_scope.

(** Error.hh:12-22, 25-36: the fields of a [ParserError]; of the [std::exception] in [cause] only
    what its [what] returns is of interest. *)
Record parser_error := mkErr { e_message : bytes; e_type : bytes; e_context : option bytes; e_cause : option bytes }.

(** What [std::exception::what] returns: libstdc++'s text. *)
Definition std_exception : bytes := lit "std::exception".

(** Error.cc:8-9 *)
Definition error_type (type : bytes) : parser_error :=
  mkErr (lit "failed parsing resource of type " ++ type) type None None.
(** Error.cc:11-13: the message is built before [type] and [ctx] are moved. *)
Definition error_context (type ctx : bytes) : parser_error :=
  mkErr (lit "failed parsing resource of type " ++ type ++ lit " [context: " ++ ctx ++ lit "]") type (Some ctx) None.
(** Error.cc:15-17: [cause(other_exc)] copies the base class only. *)
Definition error_cause (type what : bytes) : parser_error :=
  mkErr (lit "failed parsing resource of type " ++ type ++ lit " due to [" ++ what ++ lit "]") type None (Some std_exception).
(** Error.cc:19-22 *)
Definition error_cause_context (type what ctx : bytes) : parser_error :=
  mkErr (lit "failed parsing resource of type " ++ type ++ lit " due to [" ++ what ++ lit "] [context: " ++ ctx ++ lit "]")
        type (Some ctx) (Some std_exception).

(** Error.hh:16-18 [what]: a C string. *)
Definition what_of (e : parser_error) : bytes := cstr (e_message e).

(** Errors made of errors: any other exception, or a [ParserError] with or without cause and
    context.  The model of [throw ParserError {type, e, ctx}] in a handler for [e]. *)
Inductive failure :=
| Other (what : bytes)
| Parser (type : bytes) (ctx : option bytes)
| Caused (type : bytes) (by_ : failure) (ctx : option bytes).
(** What the host sees. *)
Fixpoint what (f : failure) : bytes :=
  match f with
  | Other w => cstr w
  | Parser t None => what_of (error_type t)
  | Parser t (Some c) => what_of (error_context t c)
  | Caused t g None => what_of (error_cause t (what g))
  | Caused t g (Some c) => what_of (error_cause_context t (what g) c)
  end.
(** The object that is thrown. *)
Definition made (f : failure) : option parser_error :=
  match f with
  | Other _ => None
  | Parser t None => Some (error_type t)
  | Parser t (Some c) => Some (error_context t c)
  | Caused t g None => Some (error_cause t (what g))
  | Caused t g (Some c) => Some (error_cause_context t (what g) c)
  end.

(** ArchiveBinsafe.cc:162-165: no comma between the two texts. *)
Definition vec2_error : parser_error :=
  error_type (lit "ReadArchive.Binsafe" ++ lit "cannot read vec2 (2 * float): not enough space in rawFloat entry.").
(** ArchiveBinsafe.cc:177-180 *)
Definition bbox_error : parser_error :=
  error_context (lit "ReadArchive.Binsafe") (lit "cannot read bbox (6 * float): not enough space in rawFloat entry.").
(** ArchiveBinsafe.cc:194-196 *)
Definition mat3_error : parser_error :=
  error_type (lit "ReadArchive.Binsafe: cannot read mat3x3 (9 * float): not enough space in raw entry.").
(** ArchiveBinsafe.cc:261-265 *)
Definition mismatch_error (expected got : N) : parser_error :=
  error_type (lit "ReadArchive.Binsafe: type mismatch: expected " ++ dec expected ++ lit ", got: " ++ dec got).
