(** Specification of the access to files with streams. *)
From Verif Require Import Base PyStr Io Stream SpecIo.
Open Scope string_scope.
Open Scope list_scope.

(** names of variables, without the part "Data.", and of attributes *)
Definition simple (b : string) : Prop :=
  has_char "_" b = false /\ has_char "." b = false
  /\ (forall r, b <> r +++ "Data") /\ (forall r, b <> r +++ "GLOBAL").
Definition var_named (n : string) : Prop := exists b, simple b /\ (n = b \/ n = "Data." +++ b).

(** files with names as in the conventions: no variable is named as a global
    attribute, "Data." is the only part with a dot, no further underscores, no
    members of the class *)
Record conventional (f : ncfile) : Prop := {
  cf_own : forall k, In k (file_names f) -> ~ In k stream_members;
  cf_gattr : forall a, In a (dkeys (nf_attrs f)) -> has_char "_" a = false /\ ~ In a (dkeys (nf_vars f));
  cf_var : forall n, In n (dkeys (nf_vars f)) -> var_named n;
  cf_vattr : forall n x a, In (n, x) (nf_vars f) -> In a (dkeys (nv_attrs x)) -> a <> "_Encoding" ->
    has_char "_" a = false /\ ~ In a variable_members }.

(** names of this kind; the global attributes of the file do not count as
    variables and vice versa *)
Inductive asked (f : ncfile) : string -> Prop :=
| as_global a : has_char "_" a = false -> ~ In a (dkeys (nf_vars f)) -> asked f ("GLOBAL_" +++ a)
| as_var n : var_named n -> ~ In n (dkeys (nf_attrs f)) -> asked f (undotted n)
| as_attr n r : var_named n -> ~ In n (dkeys (nf_attrs f)) -> has_char "_" r = false -> ~ In r variable_members ->
    asked f (undotted n +++ "_" +++ r).
