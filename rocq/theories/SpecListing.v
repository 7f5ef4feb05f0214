(** Specifications for the lists of conventions and of dimensions. *)
From Verif Require Import Base PyStr PyNum NdArray Sofa Verify SpecInit.
Open Scope string_scope.
Open Scope list_scope.

(** [text] is a title and one line for each element *)
Definition table {A} (text title : string) (l : list A) (line : A -> string -> Prop) : Prop :=
  exists lines, text = title +++ sconcat (fun r => r) lines /\ Forall2 line l lines.

(** default values that can be stored in a new object: lists have dimensions *)
Definition db_creatable (E : env) : Prop := db_tidy E /\
  forall f ke l, In f (db E) -> In ke (sofar_keys (snd f)) -> e_default (snd ke) = VList l ->
    e_dims (snd ke) <> None.

(** line for the dimension [fst xn] of size [snd xn] *)
Definition dimension_line (xn : string * nat) (r : string) : Prop :=
  exists rest, r = fst xn +++ " = " +++ nat_str (snd xn) +++ " " +++ rest +++ nl.
