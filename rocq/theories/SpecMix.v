(** Specification of what a list of different numbers becomes when it is stored:
    all numbers get the type of the widest one (bool, int, float). *)
From Verif Require Import Base PyNum NdArray.
From Coq Require Import ZArith.
Open Scope list_scope.

Definition is_float (e : elt) : bool := match e with EFlt _ => true | _ => false end.
Definition is_int (e : elt) : bool := match e with EInt _ => true | _ => false end.
Definition is_bool (e : elt) : bool := match e with EBool _ => true | _ => false end.

(** bool, int or float *)
Definition plain_number (e : elt) : Prop := is_bool e || is_int e || is_float e = true.

(** type of the widest number *)
Definition widest (d : list elt) : dkind :=
  if existsb is_float d then KF else if existsb is_int d then KI else KB.

(** the same number as integer or float *)
Definition to_int (e : elt) : elt := match e with EBool true => EInt 1 | EBool false => EInt 0 | _ => e end.
Definition to_float (e : elt) : elt :=
  match to_int e with EInt z => EFlt (f_of_Z z) | e' => e' end.
Definition unified (d : list elt) : list elt :=
  match widest d with KF => map to_float d | KI => map to_int d | _ => d end.
