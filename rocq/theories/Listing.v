(** Listing the available conventions.

    Models list_conventions and the text of /repo/sofar/utils.py:57-126. *)
From Verif Require Import Base PyStr PyNum NdArray Sofa Verify.
Open Scope string_scope.
Open Scope list_scope.

(** line for one convention file, /repo/sofar/utils.py:113 *)
Definition convention_line (cv : string * string) : string :=
  fst cv +++ " (Version " +++ snd cv +++ ")" +++ nl.

(** /repo/sofar/utils.py:64-126 [_get_conventions("string")] *)
Definition conventions_text (E : env) : res string :=
  let? nv := get_name_version E in
  Ok ("Available SOFA conventions:" +++ nl +++ sconcat convention_line nv).

(** /repo/sofar/utils.py:57-61 [list_conventions] *)
Definition list_conventions (E : env) : list event * res unit :=
  match conventions_text E with
  | Ok t => ([EvPrint t], Ok tt)
  | Err e => ([], Err e)
  end.
