(** Specifications for stored values and accepted names. *)
From Verif Require Import Base PyStr PyNum NdArray Sofa Verify.
Open Scope string_scope.
Open Scope list_scope.

(** [rect s v d]: [v] is a scalar or a rectangular nested list of shape [s]
    with the elements [d], first to last *)
Inductive rect : list nat -> value -> list elt -> Prop :=
| rect_scal e : rect [] (VScal e) [e]
| rect_str b s : rect [] (VStr b s) [EStr s]
| rect_nil : rect [0] (VList []) []
| rect_cons s x l d ds :
    rect s x d -> rect_all s l ds ->
    rect (S (List.length l) :: s) (VList (x :: l)) (d ++ ds)
with rect_all : list nat -> list value -> list elt -> Prop :=
| rect_all_nil s : rect_all s [] []
| rect_all_cons s x l d ds :
    rect s x d -> rect_all s l ds -> rect_all s (x :: l) (d ++ ds).

(** all elements have the dtype [k] *)
Definition homogeneous (k : dkind) (d : list elt) : Prop :=
  forall e, In e d -> elt_kind e = k.

(** Names, types and dimensions that the documentation of add_variable
    (/repo/sofar/sofa.py:480-510) and add_attribute (:524-545) allows *)
Definition documented (o : sofa) (name dtype : string) (dimensions : option string) : Prop :=
  hasattr o name = false
  /\ ((In dtype ["double"; "string"] /\ has_char "_" name = false /\ dimensions <> None)
      \/ (dtype = "attribute" /\ exists var a,
            name = var +++ "_" +++ a /\ has_char "_" a = false
            /\ (var = "GLOBAL"
                \/ (In var (dkeys (conv o))
                    /\ (has_char "_" var = false
                        \/ exists x, var = "Data_" +++ x /\ has_char "_" x = false))))).

(** names of the form Data_Variable_Attribute *)
Definition data_attribute (name : string) : Prop :=
  exists x a, name = "Data_" +++ x +++ "_" +++ a
              /\ has_char "_" x = false /\ has_char "_" a = false.
