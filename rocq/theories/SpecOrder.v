(** Specification for objects that differ in the order of their data. *)
From Verif Require Import Base PyStr NdArray Sofa Verify SpecInit SpecVerify.
From Coq Require Import Permutation.
Open Scope string_scope.
Open Scope list_scope.
Open Scope nat_scope.

(** the same data and the same custom entries in any order *)
Definition reordered (o o' : sofa) : Prop :=
  Permutation (pub o) (pub o')
  /\ match custom o, custom o' with
     | None, None => True
     | Some cu, Some cu' => Permutation cu cu'
     | _, _ => False
     end.

(** the variable [k] states a size of the dimension [c] *)
Definition states_size (cv : convention) (o : sofa) (k : string) (c : ascii) : Prop :=
  In k (variables cv o) /\ exists n, In (c, n) (states cv o k).

(** The size of [c] that [k] states is the one that its own shape is compared
    with: all alternatives have the letter at the same place, and the array has
    no axes that are moved for the comparison *)
Definition compared_as_stated (cv : convention) (o : sofa) (k : string) (c : ascii) : Prop :=
  forall e d v i x, declared cv o k = Some e -> e_dims e = Some d -> dget k (pub o) = Some v ->
  nth_error (chars (main_alternative d)) i = Some x -> is_lower_ascii x = true -> upper_char x = c ->
  (forall alt, In alt (alternatives d) -> exists y, nth_error (chars alt) i = Some y /\ upper_char y = c)
  /\ (e_type e = "double" ->
      if 1 <? String.length (hd "" (split "," d)) then List.length (shape_of v) <> 1 /\ i < 4
      else List.length (shape_of v) <= 1 /\ i = 0).

(** every dimension has its size from one variable, or from variables that are
    compared as they state it *)
Definition orderly (cv : convention) (o : sofa) : Prop :=
  forall c, (forall k k', states_size cv o k c -> states_size cv o k' c -> k = k')
            \/ (forall k, states_size cv o k c -> compared_as_stated cv o k c).
