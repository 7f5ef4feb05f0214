(** Specifications of what functions print and warn about. *)
From Verif Require Import Base PyStr PyNum NdArray Sofa Verify Io SpecInit SpecVerify SpecEquals SpecIo.
Open Scope string_scope.
Open Scope list_scope.

(** ** Printed texts and warnings in order *)
Fixpoint prints (l : list event) : list string :=
  match l with
  | [] => []
  | EvPrint s :: t => s :: prints t
  | EvWarn _ :: t => prints t
  end.
Fixpoint warnings (l : list event) : list string :=
  match l with
  | [] => []
  | EvWarn s :: t => s :: warnings t
  | EvPrint _ :: t => warnings t
  end.
Definition newline : string := str1 (ascii_of_nat 10).

(** ** equals *)
Definition same_entry (a b : sofa) (k : string) : Prop :=
  exists t v w, typed a k t /\ typed b k t /\ dget k (pub a) = Some v /\ dget k (pub b) = Some w
    /\ same_values t v w.

(** [w] tells that the entry [k] differs; values of variables are not named *)
Inductive tells (a b : sofa) (k : string) : string -> Prop :=
| tells_types t u : typed a k t -> typed b k u ->
    (t <> u \/ ~ In t ["attribute"; "double"; "string"]) ->
    tells a b k ("not identical: " +++ k +++ " has different data types (" +++ t +++ ", " +++ u +++ ")")
| tells_attr : typed a k "attribute" -> typed b k "attribute" ->
    tells a b k ("not identical: different values for " +++ k)
| tells_var t r : typed a k t -> typed b k t -> (t = "double" \/ t = "string") ->
    tells a b k ("not identical: different values for " +++ r).

(** the warning of [w] names the entry *)
Definition names_entry (k w : string) : Prop := exists p q, w = p +++ k +++ q.

(** [l] contains some of the elements of [m] in the same order *)
Inductive in_order {A} : list A -> list A -> Prop :=
| io_nil : in_order [] []
| io_skip x l m : in_order l m -> in_order l (x :: m)
| io_take x l m : in_order l m -> in_order (x :: l) (x :: m).

(** ** add_missing *)
Definition added_names (o o' : sofa) : list string :=
  filter (fun k => negb (smem k (dkeys (pub o)))) (dkeys (pub o')).
Definition added_line (cv : convention) (k : string) : string :=
  "- " +++ k +++ " (" +++
  match dget k cv with
  | Some e => if is_mandatory (e_flags e) then "mandatory" else "optional"
  | None => ""
  end +++ ")" +++ newline.
Definition added_text (cv : convention) (l : list string) : string :=
  match l with
  | [] => "All mandatory data contained."
  | _ => "Added the following missing data with their default values:" +++ newline
         +++ String.concat "" (map (added_line cv) l)
  end.

(** ** read_sofa *)

(** names of a file that are neither part of the convention nor written by the
    constructor *)
Definition foreign (E : env) (cv : convention) (f : ncfile) : list string :=
  filter (fun k => negb (smem k (dkeys cv)) && negb (smem k (dkeys (creation_entries E)))) (file_names f).
Definition foreign_text (l : list string) : string :=
  "SOFA file contained custom entries" +++ newline +++ "----------------------------------" +++ newline
  +++ String.concat ", " l.

Definition missing_text (n : string) : string := "Entry " +++ n +++ " contains missing data".
Definition missing_names (f : ncfile) : list string :=
  map fst (filter (fun nx => has_missing (snd nx)) (nf_vars f)).

(** ** write_sofa *)
Definition outdated_text (v : string) : string :=
  "Writing SOFA object with outdated Convention version " +++ v
  +++ ". It is recommend to upgrade  data with Sofa.upgrade_convention() before writing to disk if possible.".
Definition newer_version (E : env) (c v : string) : Prop :=
  exists v' content, has_file E c v' content /\ version_ltb v v' = Ok true.
