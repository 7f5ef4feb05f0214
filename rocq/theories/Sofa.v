(** The Sofa object: environment, attribute access, convention loading,
    adding and deleting entries, add_missing.

    Models /repo/sofar/sofa.py and the convention functions of
    /repo/sofar/utils.py. *)
From Verif Require Import Base PyStr PyNum NdArray.
Open Scope string_scope.
Open Scope list_scope.

(** ** Convention data and rules (json files of the submodule
    sofar/sofa_conventions, which is not part of the repository) *)

(** One entry of a convention file, /repo/sofar/sofa.py:1711-1721 and
    /repo/sofar/update_conventions.py:335-338. [e_dims = None] is json null. *)
Record entry := Entry {
  e_flags : option string; e_dims : option string; e_type : string;
  e_default : value; e_comment : option string }.

(** a convention file, /repo/sofar/sofa.py:1711-1721 *)
Definition convention := dict entry.

(** Value of a specific rule, /repo/sofar/sofa.py:1320-1370: either required
    dimensions (the key "_dimensions": name -> allowed sizes and their text) or
    required values of another entry ([None]: any value). *)
Inductive dep :=
| DepDims (l : list (string * (list nat * string)))
| DepVal (ref : option (list string)).

(** /repo/sofar/sofa.py:1290-1325. [r_general = []] if not given,
    [r_specific = None] if not given. *)
Record rule := Rule {
  r_value : option (list string);
  r_general : list string;
  r_specific : option (dict (dict dep)) }.

(** Upgrade rules, /repo/sofar/sofa.py:838-887 *)
Record move := Move {
  mv_target : string;
  mv_axis : option (list nat * list nat);
  mv_deprecated : option (list string) }.
(** /repo/sofar/sofa.py:814-816, 838-887 *)
Record upgrade_spec := UpgradeSpec {
  u_move : dict move; u_remove : list string; u_message : option string }.
(** /repo/sofar/sofa.py:775-779, 790-795 *)
Record upgrade_rule := UpgradeRule {
  u_from_to : list (list string * list string * string);
  u_specs : dict upgrade_spec }.

(** Everything the code reads from outside the object. [db] lists the file
    names of the convention files in the order of the directory listing (first
    conventions/*.json, then conventions/deprecated/*.json) with their content.
    [str_of] and [type_of] are the texts [str(v)] and [str(type(v))] of values
    that are not strings; they only occur in messages, printed output, the
    version check of [reset_convention] and in written attributes.
    /repo/sofar/sofa.py:1591-1621, 1687-1713, 1751-1761 *)
Record env := Env {
  db : list (string * convention);
  rules : dict rule;
  aliases : dict string;
  deprecations : dict string;
  upgrades : dict upgrade_rule;
  str_of : value -> string;
  type_of : value -> string;
  now : string;
  sofar_version : string;
  python_version : string }.

(** ** The object *)

(** [_read_only_attr]: assigning the list of names goes through
    [__setattr__], which turns a list with exactly one name into a
    [numpy.str_], and [in] is then a substring test
    (/repo/sofar/sofa.py:100-103, 145, 151-156) *)
Inductive ro_attr := ROList (l : list string) | ROStr (s : string).

(** Instance dictionary of a Sofa object. [pub]: attributes whose names do not
    start with an underscore, in order. [custom], [dims], [api]: [None] if the
    private attribute does not exist.
    /repo/sofar/sofa.py:84-131, 646, 717, 1178-1179 *)
Record sofa := Sofa {
  pub : dict value;
  conv : convention;
  custom : option (dict entry);
  ro : ro_attr;
  prot : bool;
  dims : option (dict string);
  api : option (dict nat) }.

(** /repo/sofar/sofa.py:84-90, 129-131: object created by [Sofa(None)] *)
Definition empty_sofa : sofa :=
  Sofa [] [] None (ROList []) false None None.

(** assignments to single fields of the instance dictionary,
    /repo/sofar/sofa.py:158, 173 *)
Definition with_pub (o : sofa) p :=
  Sofa p (conv o) (custom o) (ro o) (prot o) (dims o) (api o).
(** /repo/sofar/sofa.py:98, 131, 819, 1650 *)
Definition with_conv (o : sofa) c :=
  Sofa (pub o) c (custom o) (ro o) (prot o) (dims o) (api o).
(** /repo/sofar/sofa.py:178, 717-719, 1656 *)
Definition with_custom (o : sofa) c :=
  Sofa (pub o) (conv o) c (ro o) (prot o) (dims o) (api o).
(** /repo/sofar/sofa.py:101 *)
Definition with_ro (o : sofa) r :=
  Sofa (pub o) (conv o) (custom o) r (prot o) (dims o) (api o).
(** /repo/sofar/sofa.py:646 *)
Definition with_prot (o : sofa) b :=
  Sofa (pub o) (conv o) (custom o) (ro o) b (dims o) (api o).
(** /repo/sofar/sofa.py:1178, 1259 *)
Definition with_dims (o : sofa) d :=
  Sofa (pub o) (conv o) (custom o) (ro o) (prot o) d (api o).
(** /repo/sofar/sofa.py:1179, 1203, 1211-1213 *)
Definition with_api (o : sofa) a :=
  Sofa (pub o) (conv o) (custom o) (ro o) (prot o) (dims o) a.

(** ** State, output and exceptions *)

(** Observable output: [warnings.warn] and [print],
    e.g. /repo/sofar/sofa.py:535, 680, 1561 *)
Inductive event := EvWarn (msg : string) | EvPrint (msg : string).

(** A method: gives the object when the method returns or raises, the output
    produced until then and the result.
    Methods of the class, /repo/sofar/sofa.py:92-1836 *)
Definition M (A : Type) := sofa -> sofa * list event * res A.

(** [return], e.g. /repo/sofar/sofa.py:291 *)
Definition ret {A} (a : A) : M A := fun o => (o, [], Ok a).
(** [raise], e.g. /repo/sofar/sofa.py:142 *)
Definition raise {A} (e : exn) : M A := fun o => (o, [], Err e).
(** sequence of statements, e.g. /repo/sofar/sofa.py:727-729 *)
Definition bind {A B} (m : M A) (f : A -> M B) : M B := fun o =>
  match m o with
  | (o1, e1, Ok a) => match f a o1 with (o2, e2, r) => (o2, e1 ++ e2, r) end
  | (o1, e1, Err e) => (o1, e1, Err e)
  end.
(** notations for [bind]; model no code of /repo/sofar *)
Notation "'do' x <- m ; f" := (bind m (fun x => f))
  (at level 200, x pattern, m at level 100, f at level 200,
   right associativity).
(** notation for [bind]; models no code of /repo/sofar *)
Notation "'do_' m ; f" := (bind m (fun _ => f))
  (at level 200, m at level 100, f at level 200, right associativity).

(** reading the object, e.g. /repo/sofar/sofa.py:343 *)
Definition get : M sofa := fun o => (o, [], Ok o).
(** changing the object, e.g. /repo/sofar/sofa.py:646 *)
Definition modify (f : sofa -> sofa) : M unit := fun o => (f o, [], Ok tt).
(** [print] and [warnings.warn], e.g. /repo/sofar/sofa.py:535, 680 *)
Definition emit (e : event) : M unit := fun o => (o, [e], Ok tt).
(** an expression that may raise, e.g. /repo/sofar/sofa.py:816 *)
Definition lift {A} (r : res A) : M A := fun o => (o, [], r).
(** [if b: m], e.g. /repo/sofar/sofa.py:533 *)
Definition when (b : bool) (m : M unit) : M unit := if b then m else ret tt.

(** [for x in l: f(x)], e.g. /repo/sofar/sofa.py:834-835 *)
Fixpoint mfor {A} (l : list A) (f : A -> M unit) : M unit :=
  match l with
  | [] => ret tt
  | x :: t => do_ f x; mfor t f
  end.

(** the object after a call; models no code of /repo/sofar *)
Definition m_obj {A} (r : sofa * list event * res A) : sofa := fst (fst r).
(** the output of a call; models no code of /repo/sofar *)
Definition m_out {A} (r : sofa * list event * res A) : list event := snd (fst r).
(** the result of a call; models no code of /repo/sofar *)
Definition m_res {A} (r : sofa * list event * res A) : res A := snd r.

(** ** Flags *)

(** /repo/sofar/sofa.py:1805-1810, 1829-1834 *)
Definition flag_in (c : ascii) (f : option string) : bool :=
  match f with None => false | Some s => has_char c s end.
(** /repo/sofar/sofa.py:1790-1812 [_mandatory] *)
Definition is_mandatory (f : option string) : bool := flag_in "m" f.
(** /repo/sofar/sofa.py:1814-1836 [_read_only] *)
Definition is_read_only (f : option string) : bool := flag_in "r" f.

(** ** Attribute access *)

(** Public names found on the class: methods and properties of Sofa,
    /repo/sofar/sofa.py:188-1625 *)
Definition class_attrs : list string :=
  ["list_dimensions"; "get_dimension"; "info"; "inspect"; "add_missing";
   "add_variable"; "add_attribute"; "delete"; "protected";
   "upgrade_convention"; "verify"; "copy"].

(** [key.startswith("_")], e.g. /repo/sofar/sofa.py:343 *)
Definition is_private (name : string) : bool := startswith "_" name.

(** [hasattr(sofa, name)] for names that do not start with an underscore.
    Simplification: [hasattr(sofa, "list_dimensions")] runs the property; it is
    taken to be true.
    /repo/sofar/sofa.py:141, 168, 655 *)
Definition hasattr (o : sofa) (name : string) : bool :=
  dmem name (pub o) || smem name class_attrs.

(** [getattr(sofa, name)]. Methods and properties are not values of the
    model.
    /repo/sofar/sofa.py:844, 1021 *)
Definition getattr (o : sofa) (name : string) : res value :=
  match dget name (pub o) with
  | Some v => Ok v
  | None => if smem name class_attrs then Err (Exn ENotModelled name)
            else Err (Exn EAttributeError name)
  end.

(** [name in self._read_only_attr],
    /repo/sofar/sofa.py:145 *)
Definition in_ro (name : string) (r : ro_attr) : bool :=
  match r with ROList l => smem name l | ROStr s => contains name s end.

(** /repo/sofar/sofa.py:100-103 with :151-156 *)
Definition ro_of_convention (c : convention) : ro_attr :=
  match filter (fun kv => is_read_only (e_flags (snd kv))) c with
  | [(k, _)] => ROStr k
  | l => ROList (map fst l)
  end.

(** /repo/sofar/sofa.py:146-149 *)
Definition msg_read_only (name : string) : string :=
  name +++ " is a read only attribute. Iy you know what you are doing, you can set Sofa.protected = False to write read only data (e.g., to repair corrupted SOFA data).".

(** /repo/sofar/sofa.py:133-158 [__setattr__]. Assigning private names
    (leading underscore) and the property list_dimensions is not modelled. *)
Definition set_attr (name : string) (v : value) : M unit :=
  fun o =>
  if is_private name || String.eqb name "list_dimensions"
  then (o, [], Err (Exn ENotModelled name))
  else if prot o && negb (hasattr o name)
  then (o, [], Err (Exn ETypeError (name +++ " is an invalid attribute")))
  else if in_ro name (ro o) && prot o
  then (o, [], Err (Exn ETypeError (msg_read_only name)))
  else if String.eqb name "protected"
  then match v with
       | VScal (EBool b) => (with_prot o b, [], Ok tt)
       | _ => (o, [], Err (Exn EValueError "Sofa.protected can only be True or False"))
       end
  else match normalize v with
       | Ok w => (with_pub o (dset name w (pub o)), [], Ok tt)
       | Err e => (o, [], Err e)
       end.

(** /repo/sofar/sofa.py:628-646 [protected] setter, for Python bools *)
Definition set_protected (b : bool) : M unit := modify (fun o => with_prot o b).

(** /repo/sofar/sofa.py:160-181 [__delattr__]; /repo/sofar/sofa.py:612-626
    [delete] calls it. Private names are not modelled. *)
Definition del_attr (name : string) : M unit :=
  fun o =>
  if is_private name then (o, [], Err (Exn ENotModelled name))
  else if negb (hasattr o name)
  then (o, [], Err (Exn ETypeError (name +++ " is not an attribute")))
  else
    match (if prot o
           then let? e := dgetE name (conv o) in Ok (negb (is_mandatory (e_flags e)))
           else Ok true) with
    | Err e => (o, [], Err e)
    | Ok false =>
        (o, [], Err (Exn ETypeError
           (name +++ " is a mandatory attribute that can not be deleted")))
    | Ok true =>
        if dmem name (pub o)
        then (with_custom (with_pub o (ddel name (pub o)))
                (match custom o with
                 | Some c => Some (ddel name c)
                 | None => None
                 end), [], Ok tt)
        else (o, [], Err (Exn EAttributeError name))
    end.

(** ** Available conventions *)

(** /repo/sofar/utils.py:107-113: name and version of a convention file name;
    IndexError if the name contains no underscore *)
Definition name_version_of (file : string) : res (string * string) :=
  match split "_" file with
  | c :: v :: _ => Ok (c, drop_end 5 v)
  | _ => Err (Exn EIndexError file)
  end.

(** /repo/sofar/utils.py:64-126 [_get_conventions("name_version")] *)
Definition get_name_version (E : env) : res (list (string * string)) :=
  rmap (fun f => name_version_of (fst f)) (db E).

(** /repo/sofar/utils.py:22-54 [_verify_convention_and_version] *)
Definition verify_convention_and_version (E : env) (version conv : string)
  : res unit :=
  let? nv := get_name_version E in
  if negb (smem conv (map fst nv))
  then Err (Exn EValueError ("Convention '" +++ conv +++ "' does not exist"))
  else
    let? found :=
      rfold (fun b cv =>
               if String.eqb (fst cv) conv
               then match float_str (snd cv) with
                    | None => Err (Exn EValueError (snd cv))
                    | Some f => Ok (b || String.eqb f version)
                    end
               else Ok b) nv false in
    if found then Ok tt
    else Err (Exn EValueError (conv +++ " v" +++ version +++
                               " is not a valid SOFA Convention.If you are trying to read the data use sofar.read_sofa_as_netcdf(). Call sofar.list_conventions() for a list of valid Conventions")).

(** ** Loading a convention, /repo/sofar/sofa.py:1662-1721 *)

(** [p.split('_')[-1][:-5]], /repo/sofar/sofa.py:1698 *)
Definition file_version (file : string) : string :=
  drop_end 5 (after_last "_" file).

(** index of the first maximum, [numpy.argmax], /repo/sofar/sofa.py:1701-1703 *)
Fixpoint argmax_aux {A} (l : list (dec * A)) (best : dec * A) : A :=
  match l with
  | [] => snd best
  | x :: t => if dec_ltb (fst best) (fst x)
              then argmax_aux t x else argmax_aux t best
  end.

(** {key.replace(c, '_'): value for key, value in convention.items()},
    /repo/sofar/sofa.py:1716-1719 *)
Definition rename_keys {A} (c : ascii) (d : dict A) : dict A :=
  fold_left (fun acc kv => dset (replace_char c "_" (fst kv)) (snd kv) acc) d [].

(** /repo/sofar/sofa.py:1715-1719 *)
Definition sofar_keys {A} (d : dict A) : dict A :=
  rename_keys "." (rename_keys ":" d).

(** Python's [str] of a list of texts without quotation marks,
    /repo/sofar/sofa.py:1708 *)
Definition str_list (l : list string) : string :=
  "[" +++ String.concat ", " (map (fun s => "'" +++ s +++ "'") l) +++ "]".

(** /repo/sofar/sofa.py:1662-1721 [_load_convention].
    [_get_conventions("path")] parses all file names as well (IndexError). *)
Definition load_convention (E : env) (conv version : string) : res convention :=
  let? _ := get_name_version E in
  let files := filter (fun f => startswith (conv +++ "_") (fst f)) (db E) in
  match files with
  | [] => Err (Exn EValueError ("Convention '" +++ conv +++ "' not found. See sofar.list_conventions() for available conventions."))
  | f0 :: _ =>
      let? raw :=
        if String.eqb version "latest" then
          let? vs := rmap (fun f => match parse_float (file_version (fst f)) with
                                    | Some d => Ok (d, snd f)
                                    | None => Err (Exn EValueError (fst f))
                                    end) files in
          match vs with
          | [] => Err (Exn EValueError "argmax of an empty sequence")
          | x :: t => Ok (argmax_aux t x)
          end
        else
          match find (fun f => String.eqb (file_version (fst f)) version) files with
          | Some f => Ok (snd f)
          | None => Err (Exn EValueError ("Version " +++ version +++ " not found. Available versions are " +++ str_list (map (fun f => file_version (fst f)) files)))
          end in
      Ok (sofar_keys raw)
  end.

(** Text of a value, [str(value)],
    /repo/sofar/sofa.py:1643 *)
Definition py_str (E : env) (v : value) : string :=
  match v with VStr _ s => s | _ => str_of E v end.

(** add the entries of [c] to [d],
    /repo/sofar/sofa.py:1659-1660 *)
Definition dupdate {A} (d c : dict A) : dict A :=
  fold_left (fun acc kv => dset (fst kv) (snd kv) acc) c d.

(** /repo/sofar/sofa.py:1627-1660 [_reset_convention]. A convention name that
    is not a string always raises (ValueError or TypeError in Python). *)
Definition reset_convention (E : env) : M unit :=
  fun o =>
  match getattr o "GLOBAL_SOFAConventions",
        getattr o "GLOBAL_SOFAConventionsVersion" with
  | Err e, _ => (o, [], Err e)
  | _, Err e => (o, [], Err e)
  | Ok c, Ok v =>
      match as_str c with
      | None => (o, [], Err (Exn EValueError "Convention does not exist"))
      | Some c =>
          match (let? _ := verify_convention_and_version E (py_str E v) c in
                 load_convention E c (py_str E v)) with
          | Err e => (o, [], Err e)
          | Ok cv =>
              match custom o with
              | None => (with_conv o cv, [], Ok tt)
              | Some cu =>
                  let cu := filter (fun kv => negb (dmem (fst kv) cv)) cu in
                  (with_custom (with_conv o (dupdate cv cu)) (Some cu), [], Ok tt)
              end
          end
      end
  end.

(** ** Adding data *)

(** /repo/sofar/sofa.py:708-712 *)
Definition custom_dim_char (d : ascii) : ascii :=
  if has_char (upper_char d) "ERMNCIS" then upper_char d else lower_char d.

(** /repo/sofar/sofa.py:687-729 [_add_custom_api_entry]; the flags are always
    [None] in the callers *)
Definition add_custom_api_entry (key : string) (v : value)
    (dimensions : option string) (dtype : string) : M unit :=
  do_ set_protected false;
  do_ modify (fun o =>
      if dmem key (conv o) then o
      else
        let e := Entry None (option_map (smap custom_dim_char) dimensions) dtype
                       (VScal EObj) (Some "") in
        let cu := match custom o with Some c => c | None => [] end in
        with_conv (with_custom o (Some (dset key e cu))) (dset key e (conv o)));
  do_ set_attr key v;
  set_protected true.

(** /repo/sofar/sofa.py:671-672; the name has the form Variable_Attribute *)
Definition msg_requires (name : string) : string :=
  "Adding Attribute " +++ name +++ " requires variable "
  +++ match before_last "_" name with Some var => var | None => "" end.

(** /repo/sofar/sofa.py:648-685 [_add_entry] *)
Definition add_entry (name : string) (v : value) (dtype : string)
    (dimensions : option string) : M unit :=
  do o <- get;
  let bad := fun m => raise (Exn EValueError m) : M unit in
  if hasattr o name then bad ("Entry " +++ name +++ " already exists")
  else if negb (smem dtype ["attribute"; "double"; "string"])
  then bad ("dtype is " +++ dtype +++ " but must be attribute, double, or string")
  else if has_char "_" name && negb (String.eqb dtype "attribute")
  then bad "underscores '_' in the name are only allowed for attributes"
  else if String.eqb dtype "attribute" &&
          (negb (Nat.eqb (count_char "_" name) 1)
           || (startswith "Data_" name
               && (Nat.eqb (count_char "_" name) 0
                   || (2 <? count_char "_" name)%nat)))
  then bad ("The name of " +++ name +++ " must have the form VariableName_AttributeName")
  else if String.eqb dtype "attribute" && negb (startswith "GLOBAL_" name)
          && negb (match before_last "_" name with
                   | Some var => dmem var (conv o)
                   | None => false
                   end)
  then bad (msg_requires name)
  else if match dimensions with None => negb (String.eqb dtype "attribute")
                              | Some _ => false end
  then bad "dimensions must be provided for entries of dtype double and string"
  else
    let dimensions := option_map upper dimensions in
    do_ match dimensions with
        | None => ret tt
        | Some d =>
            mfor (filter (fun c => negb (has_char c "ERMNCIS")) (chars d))
              (fun _ => emit (EvWarn ("Added custom dimension " +++ d +++
                                      " to SOFA object")))
        end;
    add_custom_api_entry name v dimensions dtype.

(** /repo/sofar/sofa.py:539-584 [add_variable] *)
Definition add_variable (name : string) (v : value) (dtype : string)
    (dimensions : option string) : M unit := add_entry name v dtype dimensions.
(** /repo/sofar/sofa.py:586-610 [add_attribute] *)
Definition add_attribute (name : string) (v : value) : M unit :=
  add_entry name v "attribute" None.

(** /repo/sofar/sofa.py:494-537 [add_missing] *)
Definition add_missing (E : env) (mandatory optional verbose : bool) : M unit :=
  do_ reset_convention E;
  do o <- get;
  let keys := dkeys (pub o) in
  do_ set_protected false;
  let todo := filter (fun kv =>
      let m := is_mandatory (e_flags (snd kv)) in
      negb (smem (fst kv) keys) && ((m && mandatory) || (negb m && optional)))
      (conv o) in
  do_ mfor todo (fun kv => set_attr (fst kv) (e_default (snd kv)));
  do_ set_protected true;
  let added := fold_left (fun acc kv =>
      acc +++ "- " +++ fst kv +++ " (" +++
      (if is_mandatory (e_flags (snd kv)) then "mandatory" else "optional")
      +++ ")" +++ str1 (ascii_of_nat 10))
      todo ("Added the following missing data with their default values:"
            +++ str1 (ascii_of_nat 10)) in
  when verbose
    (if has_char "-" added then emit (EvPrint added)
     else emit (EvPrint "All mandatory data contained.")).
