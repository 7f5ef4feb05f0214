(** Specification for objects that differ in their numbers only. *)
From Verif Require Import Base PyStr NdArray Sofa.
Open Scope string_scope.
Open Scope list_scope.
Open Scope nat_scope.

(** an array of integers or an array of floats *)
Definition numeric (a : arr) : Prop :=
  (a_kind a = KI /\ forall x, In x (a_data a) -> exists z, x = EInt z)
  \/ (a_kind a = KF /\ forall x, In x (a_data a) -> exists f, x = EFlt f).

Definition numeric_scalar (x : elt) : Prop := (exists z, x = EInt z) \/ (exists f, x = EFlt f).

(** the same axes; further axes of length one can be appended to arrays with two or more
    axes (up to four, the most that conventions have) *)
Inductive same_axes : list nat -> list nat -> Prop :=
| axes_same s : same_axes s s
| axes_ones s m n : 2 <= List.length s -> List.length s + m <= 4 -> List.length s + n <= 4 ->
    same_axes (s ++ repeat 1 m) (s ++ repeat 1 n).

(** the same value, or numbers of the same shape *)
Inductive alike : value -> value -> Prop :=
| alike_same v : alike v v
| alike_scalars x y : numeric_scalar x -> numeric_scalar y -> alike (VScal x) (VScal y)
| alike_arrays a b : numeric a -> numeric b -> same_axes (a_shape a) (a_shape b) -> alike (VArr a) (VArr b).

(** the same names, texts and shapes; the numbers can be different. The version
    of the convention selects what an object is compared to and is the same. *)
Record same_outline (o o' : sofa) : Prop := {
  ol_names : dkeys (pub o') = dkeys (pub o);
  ol_values : forall k v w, dget k (pub o) = Some v -> dget k (pub o') = Some w -> alike v w;
  ol_version : dget "GLOBAL_SOFAConventionsVersion" (pub o') = dget "GLOBAL_SOFAConventionsVersion" (pub o);
  ol_custom : custom o' = custom o }.

(** in addition, a number can be an array with axes of length one *)
Inductive similar : value -> value -> Prop :=
| similar_alike v w : alike v w -> similar v w
| similar_scalar x a n : numeric_scalar x -> numeric a -> n <= 4 -> a_shape a = repeat 1 n -> similar (VScal x) (VArr a)
| similar_array a x n : numeric a -> numeric_scalar x -> n <= 4 -> a_shape a = repeat 1 n -> similar (VArr a) (VScal x).
Record similar_outline (o o' : sofa) : Prop := {
  sl_names : dkeys (pub o') = dkeys (pub o);
  sl_values : forall k v w, dget k (pub o) = Some v -> dget k (pub o') = Some w -> similar v w;
  sl_version : dget "GLOBAL_SOFAConventionsVersion" (pub o') = dget "GLOBAL_SOFAConventionsVersion" (pub o);
  sl_custom : custom o' = custom o }.
