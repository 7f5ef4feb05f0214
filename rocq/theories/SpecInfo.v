(** Specification of the printed information. *)
From Verif Require Import Base PyStr NdArray Sofa Verify.
Open Scope string_scope.
Open Scope list_scope.

(** [text] consists of a head and one row for each of the [keys], in this
    order; a row starts with the key *)
Definition lists (text : string) (keys : list string) : Prop :=
  exists head rows, text = head +++ sconcat (fun r => r) rows /\
    Forall2 (fun k r => exists rest, r = k +++ " : " +++ rest) keys rows.

Definition flag_of (c : dict entry) (k : string) : option string :=
  match dget k c with Some e => e_flags e | None => None end.
(** entry marked by "m" in the flags *)
Definition marked_mandatory (c : dict entry) (k : string) : bool :=
  match flag_of c k with Some f => has_char "m" f | None => false end.
Definition marked_read_only (c : dict entry) (k : string) : bool :=
  match flag_of c k with Some f => has_char "r" f | None => false end.
Definition is_attribute (c : dict entry) (k : string) : bool :=
  match dget k c with Some e => String.eqb (e_type e) "attribute" | None => false end.

(** the entries that [info] is asked to show, see its documentation *)
Definition selected (what : string) (c : dict entry) (k : string) : bool :=
  if String.eqb what "mandatory" then marked_mandatory c k
  else if String.eqb what "optional" then negb (marked_mandatory c k)
  else if String.eqb what "read only" then marked_read_only c k
  else if String.eqb what "data" then negb (is_attribute c k)
  else true.

(** the note on the shape and the note on the comment, empty if there is none *)
Definition shape_note (d : option string) : string :=
  match d with Some (String _ _ as d) => " (" +++ upper d +++ ")" | _ => "" end.
Definition comment_note (c : option string) : string :=
  match c with Some (String _ _ as c) => nl +++ "    " +++ c +++ nl | _ => nl end.
(** row of [info] for the key [k]: name, type, shape, flags and comment *)
Definition row_of (c : dict entry) (k r : string) : Prop :=
  exists e, dget k c = Some e /\
    r = k +++ " : " +++ e_type e +++ shape_note (e_dims e)
        +++ (if marked_mandatory c k then ", mandatory" else ", optional")
        +++ (if marked_read_only c k then ", read only" else "") +++ comment_note (e_comment e).
