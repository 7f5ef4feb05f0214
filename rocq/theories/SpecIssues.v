(** Specification of the report of verify: one section per kind of problem, one
    line per problem, /repo/sofar/sofa.py:984-1413. *)
From Verif Require Import Base PyStr PyNum NdArray Sofa Verify SpecInit SpecVerify.
Open Scope string_scope.
Open Scope list_scope.

(** ** Sections *)

(** lines about the names [fst] with the further text [snd] *)
Fixpoint lines (l : list (string * string)) : string :=
  match l with
  | [] => ""
  | (k, t) :: r => "- " +++ k +++ t +++ lines r
  end.

(** the lines [l] name the problems [about] and nothing else *)
Definition tells (about : string -> string -> Prop) (l : list (string * string)) : Prop :=
  (forall k t, In (k, t) l -> about k t) /\ (forall k t, about k t -> In (k, t) l).

(** the text [s] is empty if there are no problems and otherwise has a headline
    and the lines that tell the problems *)
Definition reports (head : string) (about : string -> string -> Prop) (s : string) : Prop :=
  exists l, tells about l /\ s = match l with [] => "" | _ => head +++ lines l end.

(** ** Problems. [declared cv o k] is the declaration of [k] *)

(** mandatory data that are not contained *)
Definition lacks (cv : convention) (o : sofa) (k : string) : Prop :=
  exists e, declared cv o k = Some e /\ is_mandatory (e_flags e) = true /\ ~ contained o k.

Definition missing_lines (cv : convention) (o : sofa) (k t : string) : Prop :=
  lacks cv o k /\ t = nl.

(** what is required for the type [dtype] *)
Definition demand (dtype : string) (v : value) : string :=
  if String.eqb dtype "attribute" then "string"
  else if String.eqb dtype "double" then "int or float"
  else match v with VArr _ => "U or S" | _ => "string or numpy array" end.

Definition type_lines (E : env) (cv : convention) (o : sofa) (k t : string) : Prop :=
  exists e v, declared cv o k = Some e /\ dget k (pub o) = Some v /\ ~ has_type (e_type e) v
    /\ t = (if smem (e_type e) ["attribute"; "double"; "string"]
            then " must be " +++ demand (e_type e) v +++ " but is " +++ type_of E v
            else ": Error in convention. Type must be double, string, or attribute but is "
                 +++ e_type e) +++ nl.

(** the attribute of a variable that is not declared *)
Definition orphan_lines (cv : convention) (o : sofa) (k t : string) : Prop :=
  contained o k /\ (exists e, declared cv o k = Some e /\ e_type e = "attribute")
  /\ (exists var a, k = var +++ "_" +++ a /\ has_char "_" a = false /\ declared cv o var = None)
  /\ (forall r, k <> "GLOBAL_" +++ r) /\ t = nl.

(** an attribute without underscore *)
Definition plain_lines (cv : convention) (o : sofa) (k t : string) : Prop :=
  contained o k /\ (exists e, declared cv o k = Some e /\ e_type e = "attribute")
  /\ has_char "_" k = false /\ t = nl.

(** a variable with an underscore *)
Definition variable_lines (cv : convention) (o : sofa) (k t : string) : Prop :=
  contained o k /\ (exists e, declared cv o k = Some e /\ e_type e <> "attribute")
  /\ has_char "_" (replace "Data_" "" k) = true /\ t = nl.

(** reserved names *)
Definition reserved_lines (cv : convention) (o : sofa) (k t : string) : Prop :=
  contained o k /\ t = nl
  /\ ((exists r, k = "PRIVATE" +++ r) \/ (exists r, k = "API" +++ r)
      \/ ((exists r, k = "GLOBAL" +++ r)
          /\ ((forall r, k <> "GLOBAL_" +++ r)
              \/ exists e, declared cv o k = Some e /\ e_type e <> "attribute"))).

(** custom data with the name of data of the convention *)
Definition custom_lines (cv : convention) (o : sofa) (k t : string) : Prop :=
  In k (dkeys (own_custom cv o)) /\ t = nl
  /\ exists n, In n (dkeys cv) /\ replace "GLOBAL_" "" k = replace "GLOBAL_" "" n.

(** sizes that are allowed, e.g. (M=2, C=3), (I=1, C=3) *)
Definition choice (cv : convention) (o : sofa) (alt t : string) : Prop :=
  exists l, Forall2 (fun c x => exists n, size cv o (str1 c) n /\ x = str1 c +++ "=" +++ nat_str n)
                    (chars alt) l
    /\ t = "(" +++ join ", " l +++ ")".

Definition shape_lines (cv : convention) (o : sofa) (k t : string) : Prop :=
  In k (variables cv o) /\ ~ shape_ok cv o k
  /\ exists e d v s ch, declared cv o k = Some e /\ e_dims e = Some d /\ dget k (pub o) = Some v
       /\ compared_shape (e_type e) d v s
       /\ Forall2 (choice cv o) (split "," (replace " " "" (upper d))) ch
       /\ t = " has shape "
              +++ tuple_str (map (fun i => nth i s 1)
                               (seq 0 (String.length (last (alternatives d) ""))))
              +++ " but must have " +++ join ", " ch +++ nl.

(** values that are not allowed, data that are required by other data *)
Inductive rule_lines (E : env) (cv : convention) (o : sofa) : string -> string -> Prop :=
| rl_value key r v ref : In (key, r) (rules E) ->
    dget (python_name key) (pub o) = Some v -> r_value r = Some ref ->
    ~ allowed_value E o (python_name key) ref ->
    rule_lines E cv o (python_name key)
      (" is " +++ py_str E v +++ " but must be " +++ join ", " ref +++ nl)
| rl_general key r g : In (key, r) (rules E) -> contained o (python_name key) ->
    In g (r_general r) -> ~ contained o (python_name g) ->
    rule_lines E cv o (python_name g)
      (" must be given if " +++ python_name key +++ " is in SOFA object" +++ nl)
| rl_required key r b s sp items k ref : In (key, r) (rules E) ->
    dget (python_name key) (pub o) = Some (VStr b s) -> r_specific r = Some sp ->
    dget (dep_case s) sp = Some items -> In (k, DepVal ref) items ->
    ~ contained o (python_name k) ->
    rule_lines E cv o (python_name k)
      (" must be given if " +++ python_name key +++ " is " +++ dep_case s +++ nl)
| rl_specific key r b s sp items k v ref : In (key, r) (rules E) ->
    dget (python_name key) (pub o) = Some (VStr b s) -> r_specific r = Some sp ->
    dget (dep_case s) sp = Some items -> In (k, DepVal (Some ref)) items ->
    dget (python_name k) (pub o) = Some v -> ~ allowed_value E o (python_name k) ref ->
    rule_lines E cv o (python_name k)
      (" is " +++ py_str E v +++ " but must be " +++ join ", " ref +++ " if " +++ python_name key
       +++ " is " +++ dep_case s +++ nl)
| rl_size key r b s sp items k sizes x ns text n : In (key, r) (rules E) ->
    dget (python_name key) (pub o) = Some (VStr b s) -> r_specific r = Some sp ->
    dget (dep_case s) sp = Some items -> In (k, DepDims sizes) items ->
    In (x, (ns, text)) sizes -> size cv o x n -> ~ In n ns ->
    rule_lines E cv o ("Dimension " +++ x)
      (" is of size " +++ nat_str n +++ " but must be " +++ text +++ " if " +++ python_name key
       +++ " is " +++ dep_case s +++ nl).

(** units that are not in lower case *)
Definition unit_lines (o : sofa) (k t : string) : Prop :=
  exists b u, dget k (pub o) = Some (VStr b u) /\ endswith "Units" k = true /\ lower u <> u
    /\ t = " is " +++ u +++ " but must contain only lower case letters when writing SOFA files to disk." +++ nl.

(** conventions that are deprecated *)
Definition deprecated_text (E : env) (o : sofa) : string :=
  match dget "GLOBAL_SOFAConventions" (pub o) with
  | Some (VStr _ c) =>
      match dget c (deprecations E) with
      | Some new => "Detected deprecations:" +++ nl +++ "- GLOBAL_SOFAConventions is " +++ c
          +++ ", which is deprecated. Use Sofa.upgrade_convention() to upgrade to " +++ new
      | None => ""
      end
  | _ => ""
  end.

(** ** The report *)

(** missing data and data of the wrong type *)
Inductive first_report (E : env) (cv : convention) (o : sofa) : string -> Prop :=
| fr_intro s1 s2 :
    reports ("Detected missing mandatory data call sofa.add_missing() to fix this):" +++ nl)
      (missing_lines cv o) s1 ->
    reports ("Detected data of wrong type:" +++ nl) (type_lines E cv o) s2 ->
    first_report E cv o (s1 +++ s2).

(** everything else: names, shapes, restrictions, deprecations *)
Inductive second_report (E : env) (m : vmode) (cv : convention) (o : sofa) : string -> Prop :=
| sr_intro s1 s2 s3 s4 s5 s6 s7 :
    reports ("Detected attributes with missing variables:" +++ nl) (orphan_lines cv o) s1 ->
    reports ("Detected attribute names with too many or little underscores. Names must have the form Variable_Attribute, Data_Attribute (one underscore), or Data_Variable_Attribute (two underscores):" +++ nl)
      (plain_lines cv o) s2 ->
    reports ("Detected variable names with too many underscores.Underscores are only allowed for the variable Data:" +++ nl)
      (variable_lines cv o) s3 ->
    reports ("Detected variable or attribute with reserved key words PRIVATE, API, or GLOBAL:" +++ nl)
      (reserved_lines cv o) s4 ->
    reports ("Detected custom variable or attribute with reserved names. Custom data shall not have the same name as data contained in the convention itself:" +++ nl)
      (custom_lines cv o) s5 ->
    reports ("Detected variables of wrong shape:" +++ nl) (shape_lines cv o) s6 ->
    reports ("Detected violations of the SOFA convention:" +++ nl)
      (fun k t => rule_lines E cv o k t \/ (m = VWrite /\ unit_lines o k t)) s7 ->
    second_report E m cv o
      (s1 +++ s2 +++ s3 +++ s4 +++ s5 +++ s6 +++ s7
       +++ if m_write m then deprecated_text E o else "").
