(** The conventions that sofar finds in the directory of conventions.

    Connects the json files written by [_compile_conventions] with the
    convention files that are read by [_load_convention] and listed by
    [_get_conventions]. Simplification: entries whose flags, dimensions, type or
    comment are numbers or lists are outside of the model ([None]). *)
From Verif Require Import Base PyStr PyNum NdArray Sofa UpdateConv.
Open Scope string_scope.
Open Scope list_scope.

(** a text or null in the json file, /repo/sofar/sofa.py:1711-1713 *)
Definition text_cell (c : cell) : option (option string) :=
  match c with
  | None => Some None
  | Some (VStr _ s) => Some (Some s)
  | _ => None
  end.

(** one entry of the json file, /repo/sofar/sofa.py:1711-1721 *)
Definition entry_of_json (fields : dict cell) : option entry :=
  match dget "default" fields, dget "flags" fields, dget "dimensions" fields,
        dget "type" fields, dget "comment" fields with
  | Some (Some d), Some f, Some m, Some t, Some c =>
      match text_cell f, text_cell m, text_cell t, text_cell c with
      | Some f, Some m, Some (Some t), Some c => Some (Entry f m t d c)
      | _, _, _, _ => None
      end
  | _, _, _, _, _ => None
  end.

(** /repo/sofar/sofa.py:1711-1713 *)
Definition convention_of_json (j : jconv) : option convention :=
  omap (fun kf => option_map (pair (fst kf)) (entry_of_json (snd kf))) j.

(** [glob.glob("*.json")], /repo/sofar/utils.py:96-99 *)
Definition top_json (p : string) : bool :=
  endswith ".json" p && negb (has_char "/" p) && negb (startswith "." p).
(** [glob.glob("deprecated/*.json")], /repo/sofar/utils.py:100-101 *)
Definition dep_json (p : string) : bool :=
  startswith "deprecated/" p && top_json (sdrop 11 p).

(** one file: base name and content, /repo/sofar/utils.py:110, /repo/sofar/sofa.py:1690 *)
Definition json_file (d : cdir) (p base : string) : option (string * convention) :=
  match dget p (jsons d) with
  | Some j => option_map (pair base) (convention_of_json j)
  | None => None
  end.

(** all convention files, /repo/sofar/utils.py:96-102 *)
Definition library (d : cdir) : option (list (string * convention)) :=
  let keys := dkeys (jsons d) in
  match omap (fun p => json_file d p p) (filter top_json keys),
        omap (fun p => json_file d p (sdrop 11 p)) (filter dep_json keys) with
  | Some a, Some b => Some (a ++ b)
  | _, _ => None
  end.
