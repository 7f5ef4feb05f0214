(** The reference form of a unit string. *)
From Verif Require Import Base PyStr Sofa.
Open Scope string_scope.
Open Scope list_scope.

(** /repo/sofar/sofa.py:1520-1552 [_get_reference_unit]. [re.split] never
    returns an empty list, so [units[0]] exists. *)
Definition get_reference_unit (test : string) (al : dict string) : res string :=
  let? us := rmap (fun u => dgetE u al) (re_split_comma_space (lower test)) in
  match us with
  | [] => Err (Exn EIndexError "list index out of range")
  | u :: _ => Ok (if String.eqb u "cubic" then join " " us else join ", " us)
  end.
