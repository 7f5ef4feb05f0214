(** Specification of updating and compiling conventions, independent of the
    code: which files have to be in the directory, what cleaning a file means,
    how numbers are written in a csv file, in which order entries are listed. *)
From Verif Require Import Base PyStr PyNum NdArray UpdateConv.
From Coq Require Import ZArith NArith.
Open Scope string_scope.
Open Scope list_scope.

(** ** Server and directory *)

(** a convention that has to be mirrored *)
Definition offered (S : server) (c : string) : Prop :=
  (In c (standardized S) \/ In c (deprecated S)) /\
  startswith "General_" c = false /\ startswith "GeneralString_" c = false.

(** file names of the server: no directories, extension csv, not hidden *)
Definition well_named (S : server) : Prop := forall c,
  In c (standardized S) \/ In c (deprecated S) ->
  exists x, c = x +++ ".csv" /\ has_char "/" x = false /\ x <> "" /\
            startswith "." x = false.

(** the same file is not listed twice *)
Definition dir_ok (d : cdir) : Prop :=
  NoDup (dkeys (csvs d)) /\ NoDup (dkeys (jsons d)).

(** what the server offers for a convention *)
Definition server_text (S : server) (c : string) : string :=
  content S (smem c (standardized S)) c.

(** a file with text [t] mirrors the server: it is the cleaned text, or it was
    there before ([old]) and differs only in the ends of the lines *)
Definition mirrors (S : server) (c : string) (old : option string) (t : string)
  : Prop :=
  t = clean (server_text S c) \/
  (old = Some t /\ clean t = clean (server_text S c)).

(** ** Cleaned text: line ends are a single newline without a tab before *)
Definition line_ends : list string :=
  [str1 NL; str1 TAB +++ str1 NL; str1 CR +++ str1 NL;
   str1 TAB +++ str1 CR +++ str1 NL].

(** [cleaned s t]: the lines of [s] end with one of the [line_ends] (and with
    no further tab or carriage return), [t] has the same lines ending with a
    newline *)
Inductive cleaned : string -> string -> Prop :=
| cl_last b : has_char NL b = false -> cleaned b b
| cl_line b e s t : has_char NL b = false ->
    (forall r, b <> r +++ str1 TAB) -> (forall r, b <> r +++ str1 CR) ->
    In e line_ends -> cleaned s t ->
    cleaned (b +++ e +++ s) (b +++ str1 NL +++ t).

(** ** Order of the entries *)

(** first field of a line *)
Definition line_name (l : string) : string :=
  strip (hd "" (split (str1 TAB) (strip l))).
(** names of the lines after the header *)
Definition entry_names (lines : list string) : list string :=
  map line_name (tl lines).

(** no end of a line inside *)
Definition one_line (b : string) : Prop := has_char NL b = false /\ has_char CR b = false.
(** [text_lines text l]: the lines of a text, which end with a newline, a
    carriage return or both. The last line needs no end. *)
Inductive text_lines : string -> list string -> Prop :=
| tl_none : text_lines "" []
| tl_last b : b <> "" -> one_line b -> text_lines b [b]
| tl_line b e s l : one_line b -> In e [str1 NL; str1 CR +++ str1 NL; str1 CR] ->
    (e = str1 CR -> forall r, s <> String NL r) -> text_lines s l ->
    text_lines (b +++ e +++ s) (b :: l).

(** first occurrences *)
Fixpoint first_seen (l : list string) : list string :=
  match l with
  | [] => []
  | x :: t => x :: filter (fun y => negb (String.eqb y x)) (first_seen t)
  end.

Definition is_global (n : string) : bool := contains "GLOBAL" n.
Definition is_data (n : string) : bool := startswith "Data" n.

(** ** Numbers *)
Definition Z_str (z : Z) : string :=
  match z with
  | Zneg p => "-" +++ N_str (Npos p)
  | _ => N_str (Z.to_N z)
  end.

(** text of a number in a csv file: a decimal integer, or a text with a point
    that Python's [float] accepts *)
Inductive numeral (F : flt_env) : string -> elt -> Prop :=
| num_int z : numeral F (Z_str z) (EInt z)
| num_flt s x : has_char "." s = true -> float_of F s = Some x ->
    has_char " " s = false -> has_char "," s = false ->
    has_char ";" s = false -> strip s = s ->
    numeral F s (EFlt x).

(** numbers separated by single blanks or commas *)
Inductive row_text (F : flt_env) : string -> list elt -> Prop :=
| row_one s e : numeral F s e -> row_text F s [e]
| row_more s e sep t l : numeral F s e -> sep = " " \/ sep = "," ->
    row_text F t l -> row_text F (s +++ sep +++ t) (e :: l).

Fixpoint blanks (n : nat) : string :=
  match n with O => "" | Datatypes.S k => String " " (blanks k) end.
Definition padded (s t : string) : Prop :=
  exists a b, t = blanks a +++ s +++ blanks b.

(** rows separated by semicolons, with blanks around the rows *)
Inductive rows_text (F : flt_env) : string -> list (list elt) -> Prop :=
| rows_one s t l : row_text F s l -> padded s t -> rows_text F t [l]
| rows_more s t l u ls : row_text F s l -> padded s t -> rows_text F u ls ->
    rows_text F (t +++ ";" +++ u) (l :: ls).

Definition elts (l : list elt) : value := VList (map VScal l).
