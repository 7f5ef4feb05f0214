(** Specification of the csv files of conventions: which value a cell stands
    for, which entry a row stands for. *)
From Verif Require Import Base PyStr PyNum NdArray Sofa Verify UpdateConv SpecUpdate.
From Coq Require Import ZArith.
Open Scope string_scope.
Open Scope list_scope.

(** a text that does not look like a number or a list *)
Definition word (F : flt_env) (s : string) : Prop :=
  s <> "" /\ strip s = s /\ startswith "[" s = false
  /\ (has_char "." s = true -> float_of F s = None)
  /\ exists c, has_char c s = true /\ is_digit c = false /\ c <> "+"%char /\ c <> "-"%char /\ c <> "_"%char.

(** [cell_is F s c]: the cell with the text [s] stands for [c] *)
Inductive cell_is (F : flt_env) : string -> cell -> Prop :=
| ci_blank n : cell_is F (blanks n) None
| ci_word s t : word F s -> padded s t -> cell_is F t (Some (VStr false s))
| ci_number s e t : numeral F s e -> startswith "[" s = false -> padded s t -> cell_is F t (Some (VScal e))
| ci_list s row t : rows_text F s [row] -> padded ("[" +++ s +++ "]") t ->
    cell_is F t (Some (VList (map VScal row)))
| ci_table s rows t : 2 <= List.length rows -> rows_text F s rows -> padded ("[" +++ s +++ "]") t ->
    cell_is F t (Some (VList (map (fun r => VList (map VScal r)) rows))).

(** default values that are not written as numbers *)
Definition sos_filter : value := VList (map (fun z => VScal (EInt z)) [0; 0; 0; 1; 0; 0]%Z).
Definition code_defaults : dict value :=
  [("permute([0 0 0 1 0 0; 0 0 0 1 0 0], [3 1 2]);", VList [VList [sos_filter; sos_filter]]);
   ("permute([0 0 0 1 0 0], [3 1 2]);", VList [VList [sos_filter]]);
   ("{''}", VList [VStr false ""])].

Definition is_version (name : string) : bool := contains "Version" name.

(** [default_is F name c v]: the default value of the entry if the cell stands
    for [c]; versions are texts *)
Inductive default_is (F : flt_env) (name : string) : cell -> value -> Prop :=
| di_none : default_is F name None (VStr false "")
| di_text s : dget s code_defaults = None -> default_is F name (Some (VStr false s)) (VStr false s)
| di_code s v : dget s code_defaults = Some v -> is_version name = false ->
    default_is F name (Some (VStr false s)) v
| di_number e : is_version name = false -> default_is F name (Some (VScal e)) (VScal e)
| di_list l : is_version name = false -> default_is F name (Some (VList l)) (VList l)
| di_version_int z : is_version name = true -> f_is_finite (f_of_Z z) = true ->
    default_is F name (Some (VScal (EInt z))) (VStr false (float_repr F (f_of_Z z)))
| di_version_flt x : is_version name = true ->
    default_is F name (Some (VScal (EFlt x))) (VStr false (float_repr F x)).

(** a row as it is written *)
Record row := Row { w_name : string; w_default : string; w_flags : string;
                    w_dims : string; w_type : string; w_comment : string }.
Definition row_cells (r : row) : list string :=
  [w_name r; w_default r; w_flags r; w_dims r; w_type r; w_comment r].
Definition row_text_of (r : row) : string := join (str1 TAB) (row_cells r).

(** the entry of a row; a blank comment is the empty text *)
Record row_is (F : flt_env) (r : row) (ke : string * dict cell) : Prop := {
  ri_cells : forall s c, In s (row_cells r) -> In c [TAB; NL; CR] -> has_char c s = false;
  ri_name : word F (w_name r) /\ fst ke = w_name r;
  ri_entry : exists c d f m t k,
    cell_is F (w_default r) c /\ default_is F (w_name r) c d
    /\ cell_is F (w_flags r) f /\ cell_is F (w_dims r) m
    /\ cell_is F (w_type r) (Some t) /\ cell_is F (w_comment r) k
    /\ snd ke = [("default", Some d); ("flags", f); ("dimensions", m); ("type", Some t);
                 ("comment", match k with None => Some (VStr false "") | _ => k end)] }.

Definition first_line : string :=
  join (str1 TAB) ["Name"; "Default"; "Flags"; "Dimensions"; "Type"; "Comment"].

(** a file with these rows, each followed by its line end *)
Definition csv_file (e0 : string) (rows : list (row * string)) : string :=
  first_line +++ e0 +++ sconcat (fun re => row_text_of (fst re) +++ snd re) rows.

(** global attributes first, data last *)
Definition arranged {A} (d : dict A) : dict A :=
  filter (fun ke => is_global (fst ke) && negb (is_data (fst ke))) d ++
  filter (fun ke => negb (is_global (fst ke)) && negb (is_data (fst ke))) d ++
  filter (fun ke => is_data (fst ke)) d.

(** the fields of a compiled entry and the entry of the convention *)
Record fields_of (fields : dict cell) (e : entry) : Prop := {
  fo_default : dget "default" fields = Some (Some (e_default e));
  fo_flags : exists f, dget "flags" fields = Some f /\ e_flags e = match f with Some (VStr _ s) => Some s | _ => None end;
  fo_dims : exists m, dget "dimensions" fields = Some m /\ e_dims e = match m with Some (VStr _ s) => Some s | _ => None end;
  fo_type : exists b, dget "type" fields = Some (Some (VStr b (e_type e)));
  fo_comment : exists c, dget "comment" fields = Some c /\ e_comment e = match c with Some (VStr _ s) => Some s | _ => None end }.

(** the text of a convention file for [ents] *)
Definition is_csv_of (F : flt_env) (text : string) (ents : dict (dict cell)) : Prop :=
  exists e0 rows, text = csv_file e0 rows /\ In e0 line_ends /\ (forall re, In re rows -> In (snd re) line_ends)
    /\ Forall2 (fun re ke => row_is F (fst re) ke) rows ents.
