(** The short descriptions repr(sofa) and sofar.version(). *)
From Verif Require Import Base PyStr PyNum NdArray Sofa.
Open Scope string_scope.
Open Scope list_scope.

(** [Sofa.__repr__], /repo/sofar/sofa.py:183-186 *)
Definition repr (E : env) (o : sofa) : res string :=
  let? c := getattr o "GLOBAL_SOFAConventions" in
  let? v := getattr o "GLOBAL_SOFAConventionsVersion" in
  Ok ("sofar.SOFA object: " +++ py_str E c +++ " " +++ py_str E v).

(** [sofar.version()] for the version of sofar and the content of the file
    VERSION in the folder of the conventions, /repo/sofar/utils.py:10-19 *)
Definition version_text (sofar file : string) : string :=
  "sofar v" +++ sofar +++ " implementing SOFA standard "
  +++ strip (hd "" (split (str1 (ascii_of_nat 10)) file)).
