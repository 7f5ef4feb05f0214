(** Specification of the text printed by [SofaStream.inspect] and
    [SofaStream.list_dimensions]. *)
From Verif Require Import Base PyStr PyNum NdArray Sofa Verify SpecEquals Io Stream SpecIo.
Open Scope string_scope.
Open Scope list_scope.
Open Scope nat_scope.

(** names of all data of a file in the order of the file *)
Definition inspected_names (f : ncfile) : list string :=
  map (fun a => "GLOBAL_" +++ a) (dkeys (nf_attrs f))
  ++ flat_map (fun nx => undotted (fst nx)
        :: map (fun a => undotted (fst nx) +++ "_" +++ a) (dkeys (nv_attrs (snd nx)))) (nf_vars f).

(** "M=1, R=2, N=128" *)
Fixpoint commas (l : list string) : string :=
  match l with
  | [] => ""
  | [x] => x
  | x :: r => x +++ ", " +++ commas r
  end.

(** the elements of a variable; characters are not joined to texts *)
Inductive raw_elements (x : ncvar) : list elt -> Prop :=
| re_num k fill d d' : nv_data x = DNum k fill d -> Forall2 (element_read fill) d d' -> raw_elements x d'
| re_char t : nv_data x = DChar t ->
    raw_elements x (map (fun c => EByt (if Ascii.eqb c Ascii.zero then "" else str1 c)) (chars t)).

(** [v] holds the elements of [x] with the shape [s] *)
Definition raw_value (x : ncvar) (s : list nat) (v : value) : Prop :=
  exists d, raw_elements x d /\ value_is v s d /\ masked v = has_missing x.

(** what is shown for each name *)
Inductive shows (E : env) (f : ncfile) : string -> string -> Prop :=
| sh_global a v : In (a, v) (nf_attrs f) -> shows E f ("GLOBAL_" +++ a) (py_str E v +++ nl)
| sh_single n x v : In (n, x) (nf_vars f) -> prod (nv_shape x) = 1 -> raw_value x (tl (nv_shape x)) v ->
    shows E f (undotted n) (py_str E v +++ nl)
| sh_small n x l v : In (n, x) (nf_vars f) -> prod (nv_shape x) <> 1 -> prod (nv_shape x) <= 6 ->
    Forall2 (fun p t => t = fst p +++ "=" +++ nat_str (snd p)) (combine (nv_dims x) (nv_shape x)) l ->
    raw_value x (sh_squeeze (nv_shape x)) v ->
    shows E f (undotted n) ("(" +++ commas l +++ ")" +++ nl
      +++ "  " +++ replace nl (nl +++ "  ") (py_str E v) +++ nl)
| sh_large n x l : In (n, x) (nf_vars f) -> 6 < prod (nv_shape x) ->
    Forall2 (fun p t => t = fst p +++ "=" +++ nat_str (snd p)) (combine (nv_dims x) (nv_shape x)) l ->
    shows E f (undotted n) ("(" +++ commas l +++ ")" +++ nl)
| sh_attr n x a b t : In (n, x) (nf_vars f) -> In (a, VStr b t) (nv_attrs x) ->
    shows E f (undotted n +++ "_" +++ a) (t +++ nl).

(** the text: a title, a line and one row for each name *)
Definition inspection (E : env) (f : ncfile) (text : string) : Prop :=
  exists c v s title line rows,
    dget "SOFAConventions" (nf_attrs f) = Some c
    /\ dget "SOFAConventionsVersion" (nf_attrs f) = Some v
    /\ dget "Version" (nf_attrs f) = Some s
    /\ title = py_str E c +++ " " +++ py_str E v +++ " (SOFA version " +++ py_str E s +++ ")"
    /\ String.length line = S (String.length title) /\ (forall x, In x (chars line) -> x = "-"%char)
    /\ text = title +++ nl +++ line +++ nl +++ sconcat (fun r => r) rows
    /\ Forall2 (fun k r => exists t, r = k +++ " : " +++ t /\ shows E f k t) (inspected_names f) rows.

(** files of which the content can be shown: the header is complete, variables
    hold numbers or characters and have at least one axis, the attributes of
    variables are texts and not named as members of the library *)
Record inspectable (f : ncfile) : Prop := {
  ip_head : forall k, In k ["SOFAConventions"; "SOFAConventionsVersion"; "Version"] -> In k (dkeys (nf_attrs f));
  ip_var : forall n x, In (n, x) (nf_vars f) -> var_wf x /\ nv_data x <> DOther /\ nv_shape x <> []
    /\ List.length (nv_dims x) = List.length (nv_shape x);
  ip_attr : forall n x a v, In (n, x) (nf_vars f) -> In (a, v) (nv_attrs x) ->
    (exists b t, v = VStr b t) /\ ~ In a variable_members }.
