(** Specification: two files with the same content. *)
From Verif Require Import Base PyStr PyNum NdArray Sofa Io.
Open Scope string_scope.
Open Scope list_scope.

(** variables with the same dimensions, elements and attributes *)
Record same_var (x y : ncvar) : Prop := {
  sv_dims : nv_dims x = nv_dims y;
  sv_shape : nv_shape x = nv_shape y;
  sv_data : nv_data x = nv_data y;
  sv_attrs : forall b, dget b (nv_attrs x) = dget b (nv_attrs y) }.

(** the same dimensions, attributes and variables in any order *)
Record same_file (f g : ncfile) : Prop := {
  sf_dims : forall d, dget d (nf_dims f) = dget d (nf_dims g);
  sf_attrs : forall b, dget b (nf_attrs f) = dget b (nf_attrs g);
  sf_vars : forall n, (dget n (nf_vars f) = None /\ dget n (nf_vars g) = None)
    \/ exists x y, dget n (nf_vars f) = Some x /\ dget n (nf_vars g) = Some y /\ same_var x y }.
