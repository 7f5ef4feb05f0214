(** Specification of valid objects: what /repo/sofar/sofa.py:890-970 promises
    that verify checks, stated on the content of an object. *)
From Verif Require Import Base PyStr PyNum NdArray Sofa Verify SpecInit.
Open Scope string_scope.
Open Scope list_scope.

(** ** Declared entries *)

(** the object contains [k] *)
Definition contained (o : sofa) (k : string) : Prop := In k (dkeys (pub o)).

(** custom entries that are not entries of the convention *)
Definition own_custom (cv : convention) (o : sofa) : dict entry :=
  match custom o with
  | None => []
  | Some cu => filter (fun ke => negb (dmem (fst ke) cv)) cu
  end.

(** the declaration of [k]: by the convention, otherwise by the user *)
Definition declared (cv : convention) (o : sofa) (k : string) : option entry :=
  match dget k cv with
  | Some e => Some e
  | None => dget k (own_custom cv o)
  end.

(** ** Types *)
Definition has_type (dtype : string) (v : value) : Prop :=
  (dtype = "attribute" /\ exists b s, v = VStr b s)
  \/ (dtype = "double"
      /\ ((exists z, v = VScal (EInt z)) \/ (exists f, v = VScal (EFlt f))
          \/ (exists a, v = VArr a /\ (a_kind a = KI \/ a_kind a = KF))))
  \/ (dtype = "string"
      /\ ((exists b s, v = VStr b s) \/ (exists a, v = VArr a /\ a_kind a = KU))).

(** ** Names *)
Definition name_ok (decl : string -> option entry) (k dtype : string) : Prop :=
  (dtype = "attribute" ->
     exists var a, k = var +++ "_" +++ a /\ has_char "_" a = false
       /\ (decl var <> None \/ exists r, k = "GLOBAL_" +++ r))
  /\ (dtype <> "attribute" -> has_char "_" (replace "Data_" "" k) = false)
  /\ (forall r, k <> "PRIVATE" +++ r) /\ (forall r, k <> "API" +++ r)
  /\ (forall r, k = "GLOBAL" +++ r -> dtype = "attribute" /\ exists s, r = "_" +++ s).

(** ** Shapes *)
Definition shape_of (v : value) : list nat :=
  match v with VArr a => a_shape a | _ => [] end.

(** extent along axis [i], at least four axes *)
Definition axis (v : value) (i : nat) : option nat :=
  nth_error (shape_of v ++ repeat 1 (4 - List.length (shape_of v))) i.

(** a string or an array of strings with the shape [s]; [ls] are the lengths of
    the strings. Arrays are not empty and have one axis or a single string per
    row or a single row *)
Inductive strings : value -> list nat -> list nat -> Prop :=
| strings_str b s : strings (VStr b s) [1; 1] [String.length s]
| strings_arr a n rest ls :
    a_shape a = n :: rest -> (n <= 1 \/ prod rest = 1) ->
    a_data a <> [] ->
    Forall2 (fun x l => exists s, (x = EStr s \/ x = EByt s) /\ String.length s = l)
            (a_data a) ls ->
    strings (VArr a) (n :: rest) ls.

(** numpy.atleast_3d with an axis appended *)
Definition shape4 (s : list nat) : list nat :=
  match s with
  | [] => [1; 1; 1; 1]
  | [n] => [1; n; 1; 1]
  | [m; n] => [m; n; 1; 1]
  | [m; n; p] => [m; n; p; 1]
  | _ => s
  end.

(** shape of a variable with the dimensions [d] as used for the comparison *)
Inductive compared_shape (dtype d : string) (v : value) : list nat -> Prop :=
| cs_string s ls : (dtype = "attribute" \/ dtype = "string") -> strings v s ls ->
    compared_shape dtype d v s
| cs_multi : dtype <> "attribute" -> dtype <> "string" ->
    1 < String.length (hd "" (split "," d)) ->
    compared_shape dtype d v (shape4 (shape_of v))
| cs_single : dtype <> "attribute" -> dtype <> "string" ->
    String.length (hd "" (split "," d)) <= 1 ->
    compared_shape dtype d v [prod (shape_of v)].

(** the alternatives of a dimension string, e.g. "IC" and "MC" of "IC, MC" *)
Definition alternatives (d : string) : list string := split ", " d.
Definition main_alternative (d : string) : string := hd "" (alternatives d).

(** ** Sizes of the dimensions *)

(** letters with their position *)
Fixpoint indexed (i : nat) (s : string) : list (nat * ascii) :=
  match s with
  | EmptyString => []
  | String c t => (i, c) :: indexed (S i) t
  end.

(** the variables that set sizes, in the order in which they do: all variables
    of the object, then the custom variables again *)
Definition variables (cv : convention) (o : sofa) : list string :=
  filter (fun k => match declared cv o k with
                   | Some e => match e_dims e with Some _ => true | None => false end
                   | None => false
                   end) (dkeys (pub o))
  ++ filter (fun k => negb (startswith "_" k))
       (map fst (filter (fun ke => match e_dims (snd ke) with Some _ => true | None => false end)
                        (own_custom cv o))).

(** sizes stated by a variable: the extents along the axes with a lower case
    letter in its first alternative *)
Definition states (cv : convention) (o : sofa) (k : string) : list (ascii * option nat) :=
  match declared cv o k, dget k (pub o) with
  | Some e, Some v =>
      match e_dims e with
      | Some d => map (fun ic => (upper_char (snd ic), axis v (fst ic)))
                      (filter (fun ic => is_lower_ascii (snd ic))
                              (indexed 0 (main_alternative d)))
      | None => []
      end
  | _, _ => []
  end.
Definition all_states (cv : convention) (o : sofa) : list (ascii * option nat) :=
  flat_map (states cv o) (variables cv o).

(** variables that hold strings for the dimension S *)
Definition string_variable (cv : convention) (o : sofa) (k : string) : Prop :=
  In k (variables cv o) /\ exists e d, declared cv o k = Some e /\ e_dims e = Some d
    /\ has_char "S" (main_alternative d) = true.

(** the length of the longest string, 0 if there is no string variable *)
Definition longest (cv : convention) (o : sofa) (n : nat) : Prop :=
  (forall k v s ls l, string_variable cv o k -> dget k (pub o) = Some v ->
     strings v s ls -> In l ls -> l <= n)
  /\ (n = 0 \/ exists k v s ls, string_variable cv o k /\ dget k (pub o) = Some v
        /\ strings v s ls /\ In n ls).

(** [size cv o x n]: the dimension [x] has the size [n]; the last statement
    counts *)
Definition size (cv : convention) (o : sofa) (x : string) (n : nat) : Prop :=
  (x = "C" /\ n = 3) \/ (x = "I" /\ n = 1) \/ (x = "S" /\ longest cv o n)
  \/ exists c l r, x = str1 c /\ has_char c "CIS" = false
       /\ all_states cv o = l ++ (c, Some n) :: r /\ ~ In c (map fst r).

(** all sizes can be determined *)
Definition sized (cv : convention) (o : sofa) : Prop :=
  (forall k, In k (variables cv o) -> contained o k)
  /\ (forall c n, In (c, n) (all_states cv o) -> n <> None)
  /\ (forall k, string_variable cv o k ->
        exists v s ls, dget k (pub o) = Some v /\ strings v s ls).

(** the extent that a letter of a dimension string stands for; strings count as
    one element *)
Definition extent (cv : convention) (o : sofa) (x : ascii) (n : nat) : Prop :=
  if Ascii.eqb x "S" then n = 1 else size cv o (str1 (upper_char x)) n.

(** shape [s] fits the alternative [alt]; missing axes count as 1, further axes
    are not looked at *)
Definition fits (cv : convention) (o : sofa) (s : list nat) (alt : string) : Prop :=
  forall i x, nth_error (chars alt) i = Some x -> extent cv o x (nth i s 1).

(** all letters of an alternative have a size *)
Definition letters_known (cv : convention) (o : sofa) (alt : string) : Prop :=
  forall x, has_char x alt = true -> exists n, extent cv o x n.

Definition shape_ok (cv : convention) (o : sofa) (k : string) : Prop :=
  exists e d v s pre alt post,
    declared cv o k = Some e /\ e_dims e = Some d /\ dget k (pub o) = Some v
    /\ compared_shape (e_type e) d v s
    /\ alternatives d = pre ++ alt :: post
    /\ (forall a, In a pre -> letters_known cv o a)
    /\ fits cv o s alt.

(** ** Rules *)

(** [units l s]: the text [s] lists the units [l], separated by a comma or a
    comma and a space *)
Inductive units : list string -> string -> Prop :=
| units_one u : has_char "," u = false -> units [u] u
| units_space u l s : has_char "," u = false -> units l s ->
    units (u :: l) (u +++ ", " +++ s)
| units_comma u l s : has_char "," u = false -> units l s ->
    startswith " " s = false -> units (u :: l) (u +++ "," +++ s).

(** every unit is an alias of the corresponding reference unit *)
Definition same_units (al : dict string) (s ref : string) : Prop :=
  exists us rs, units us s /\ units rs ref /\ Forall2 (fun u r => dget u al = Some r) us rs.

(** an allowed value for the entry [key] *)
Definition allowed (E : env) (key s : string) (ref : list string) : Prop :=
  In s ref
  \/ (key <> "GLOBAL_DataType" /\ key <> "GLOBAL_SOFAConventions"
      /\ (In (lower s) ref
          \/ (endswith "Units" key = true
              /\ exists r, ref = [r] /\ same_units (aliases E) (lower s) r))).

Definition allowed_value (E : env) (o : sofa) (key : string) (ref : list string) : Prop :=
  exists b s, dget key (pub o) = Some (VStr b s) /\ allowed E key s ref.

(** coordinate types are compared in lower case *)
Definition dep_case (s : string) : string :=
  if smem (lower s) ["cartesian"; "spherical"; "spherical harmonics"] then lower s else s.

Definition dep_ok (E : env) (cv : convention) (o : sofa) (kd : string * dep) : Prop :=
  match snd kd with
  | DepDims l => forall x ns t, In (x, (ns, t)) l -> exists n, size cv o x n /\ In n ns
  | DepVal None => contained o (python_name (fst kd))
  | DepVal (Some ref) => allowed_value E o (python_name (fst kd)) ref
  end.

Definition rule_ok (E : env) (cv : convention) (o : sofa) (key : string) (r : rule) : Prop :=
  forall v, dget key (pub o) = Some v ->
    (forall ref, r_value r = Some ref -> allowed_value E o key ref)
    /\ (forall g, In g (r_general r) -> contained o (python_name g))
    /\ (forall sp, r_specific r = Some sp ->
          (forall a, v <> VArr a)
          /\ forall b s items kd, v = VStr b s -> dget (dep_case s) sp = Some items ->
               In kd items -> dep_ok E cv o kd).

(** ** Names of custom data *)
Definition no_clash (E : env) (c v : string) (cv : convention) (o : sofa) : Prop :=
  custom o = None
  \/ ((exists b, dget "GLOBAL_SOFAConventionsVersion" (pub o) = Some (VStr b v))
      /\ is_ok (snd (sofa_init E c false v VAuto)) = true
      /\ forall k n, In k (dkeys (own_custom cv o)) -> In n (dkeys cv) ->
           replace "GLOBAL_" "" k <> replace "GLOBAL_" "" n).

(** ** Valid objects *)
Record valid_for (E : env) (m : vmode) (o : sofa) (c v : string) (cv : convention) : Prop := {
  va_name : exists b, dget "GLOBAL_SOFAConventions" (pub o) = Some (VStr b c);
  va_version : exists w, dget "GLOBAL_SOFAConventionsVersion" (pub o) = Some w /\ py_str E w = v;
  va_file : exists content, has_file E c v content /\ cv = sofar_keys content;
  va_mandatory : forall k e, declared cv o k = Some e -> is_mandatory (e_flags e) = true ->
    contained o k;
  va_type : forall k w, dget k (pub o) = Some w ->
    exists e, declared cv o k = Some e /\ has_type (e_type e) w;
  va_names : forall k e, contained o k -> declared cv o k = Some e ->
    name_ok (declared cv o) k (e_type e);
  va_custom : no_clash E c v cv o;
  va_sized : sized cv o;
  va_shapes : forall k, In k (variables cv o) -> shape_ok cv o k;
  va_rules : forall k r, In (k, r) (rules E) -> rule_ok E cv o (python_name k) r;
  va_units : m = VWrite -> forall k w, dget k (pub o) = Some w -> endswith "Units" k = true ->
    exists b s, w = VStr b s /\ lower s = s;
  va_current : m = VWrite -> dget c (deprecations E) = None }.

Definition valid (E : env) (m : vmode) (o : sofa) : Prop :=
  exists c v cv, valid_for E m o c v cv.

(** rules that refer to entries of SOFA objects, not to methods of the class *)
Definition not_method (k : string) : Prop := ~ In (python_name k) class_attrs.
Definition rules_tidy (E : env) : Prop :=
  forall k r, In (k, r) (rules E) ->
    not_method k /\ (forall g, In g (r_general r) -> not_method g)
    /\ forall sp x items d, r_specific r = Some sp -> In (x, items) sp -> In d items ->
         not_method (fst d).

(** the dictionaries of an object have no duplicate keys *)
Definition dicts_ok (o : sofa) : Prop :=
  NoDup (dkeys (pub o)) /\ match custom o with Some cu => NoDup (dkeys cu) | None => True end.

(** ** Convention and completeness of an object *)
Definition convention_of (E : env) (o : sofa) (cv : convention) : Prop :=
  exists b c w content,
    dget "GLOBAL_SOFAConventions" (pub o) = Some (VStr b c)
    /\ dget "GLOBAL_SOFAConventionsVersion" (pub o) = Some w
    /\ has_file E c (py_str E w) content /\ cv = sofar_keys content.

(** all mandatory data are contained *)
Definition complete (E : env) (o : sofa) : Prop :=
  forall cv k e, convention_of E o cv -> declared cv o k = Some e ->
    is_mandatory (e_flags e) = true -> contained o k.

(** ** Handling of issues, /repo/sofar/sofa.py:906-928: what is warned or printed
    and what is returned or raised for warnings [w] and errors [e] *)
Definition told (h : handling) (w e : string) : list event :=
  match h with
  | HRaise => if String.eqb w "" then [] else [EvWarn (warn_head +++ w)]
  | HPrint => (if String.eqb w "" then [] else [EvPrint (warn_head +++ w)])
              ++ (if String.eqb e "" then [] else [EvPrint (err_head +++ e)])
  | _ => []
  end.
Definition answer (h : handling) (w e : string) : res (option string) :=
  match h with
  | HRaise => if String.eqb e "" then Ok None else Err (Exn EValueError (err_head +++ e))
  | HReturn => Ok (if String.eqb e "" then None
                   else Some (err_head +++ e +++ if String.eqb w "" then "" else nl +++ warn_head +++ w))
  (** any other text: only data of the wrong type are returned *)
  | HOther => Ok (if startswith "Detected data of wrong type:" e then Some (err_head +++ e) else None)
  | _ => Ok None
  end.
