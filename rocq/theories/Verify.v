(** [Sofa.verify], creation of objects, get_dimension, inspect, info.

    Models /repo/sofar/sofa.py. *)
From Verif Require Import Base PyStr PyNum NdArray Sofa.
From Coq Require Import NArith.
Open Scope string_scope.
Open Scope list_scope.

(** line break,
    /repo/sofar/sofa.py:977 *)
Definition nl : string := str1 (ascii_of_nat 10).

(** issue_handling of verify and inspect; [HOther] is any other text,
    /repo/sofar/sofa.py:896-969 and :409-439 *)
Inductive handling := HRaise | HPrint | HReturn | HIgnore | HOther.
(** mode; any text but "write" is [VRead], /repo/sofar/sofa.py:896-969 *)
Inductive vmode := VWrite | VRead.
(** the comparisons of issue_handling with texts,
    /repo/sofar/sofa.py:993, 1069, 1073, 1417-1425, 1560-1572 *)
Definition handling_of (word : string) : handling :=
  if String.eqb word "raise" then HRaise
  else if String.eqb word "print" then HPrint
  else if String.eqb word "return" then HReturn
  else if String.eqb word "ignore" then HIgnore else HOther.
(** the comparisons of mode with "write", /repo/sofar/sofa.py:1377, 1401 *)
Definition mode_of (word : string) : vmode := if String.eqb word "write" then VWrite else VRead.

(** [issue_handling == "raise"], /repo/sofar/sofa.py:993, 1003, 1560 *)
Definition h_raise (h : handling) := match h with HRaise => true | _ => false end.
(** [issue_handling == "print"], /repo/sofar/sofa.py:1073, 1422, 1562 *)
Definition h_print (h : handling) := match h with HPrint => true | _ => false end.
(** [issue_handling == "return"], /repo/sofar/sofa.py:1424 *)
Definition h_return (h : handling) := match h with HReturn => true | _ => false end.
(** [issue_handling == "ignore"], /repo/sofar/sofa.py:1069, 1417 *)
Definition h_ignore (h : handling) := match h with HIgnore => true | _ => false end.
(** [mode == "write"], /repo/sofar/sofa.py:1377, 1401 *)
Definition m_write (m : vmode) := match m with VWrite => true | _ => false end.

(** concatenation of the texts given by [f] for all elements of [l],
    e.g. /repo/sofar/sofa.py:1268-1271 *)
Fixpoint sconcat {A} (f : A -> string) (l : list A) : string :=
  match l with [] => "" | x :: t => f x +++ sconcat f t end.
(** the same if [f] may raise,
    e.g. /repo/sofar/sofa.py:1083-1091 *)
Fixpoint rconcat {A} (f : A -> res string) (l : list A) : res string :=
  match l with
  | [] => Ok ""
  | x :: t => let? a := f x in let? b := rconcat f t in Ok (a +++ b)
  end.

(** [msg] with a headline unless it is empty ([if current_error:]),
    /repo/sofar/sofa.py:1062-1064 and the following sections *)
Definition section (head msg : string) : string :=
  if String.eqb msg "" then "" else head +++ msg.

(** /repo/sofar/sofa.py:1000, 1091 *)
Definition bullet (key : string) : string := "- " +++ key +++ nl.

(** ** 1. mandatory data, /repo/sofar/sofa.py:984-1009 *)

(** /repo/sofar/sofa.py:989-991 *)

Definition missing (o : sofa) : list (string * entry) :=
  filter (fun kv => is_mandatory (e_flags (snd kv))
                    && negb (smem (fst kv) (dkeys (pub o)))) (conv o).

(** /repo/sofar/sofa.py:993-997 *)
Definition add_defaults (l : list (string * entry)) : M unit :=
  mfor l (fun kv => do_ set_protected false;
                    do_ set_attr (fst kv) (e_default (snd kv));
                    set_protected true).

(** ** 2. data types, /repo/sofar/sofa.py:1011-1076 *)

(** /repo/sofar/sofa.py:1016-1060, one entry. Simplification: the text for
    arrays that are no strings contains the type of the array and not of its
    dtype *)

Definition type_error (E : env) (key dtype : string) (v : value) : string :=
  if String.eqb dtype "attribute" then
    if is_str v then "" else
      "- " +++ key +++ " must be string but is " +++ type_of E v +++ nl
  else if String.eqb dtype "double" then
    match v with
    | VScal (EInt _) | VScal (EFlt _) => ""
    | VArr a => match a_kind a with
                | KI | KF => ""
                | _ => "- " +++ key +++ " must be int or float but is "
                       +++ type_of E v +++ nl
                end
    | _ => "- " +++ key +++ " must be int or float but is " +++ type_of E v +++ nl
    end
  else if String.eqb dtype "string" then
    match v with
    | VStr _ _ => ""
    | VArr a => (* str(dtype) is '<U..' for kind U but '|S..' for kind S *)
        match a_kind a with
        | KU => ""
        | _ => "- " +++ key +++ " must be U or S but is " +++ type_of E v +++ nl
        end
    | _ => "- " +++ key +++ " must be string or numpy array but is "
           +++ type_of E v +++ nl
    end
  else "- " +++ key +++ ": Error in convention. Type must be double, string, or attribute but is "
       +++ dtype +++ nl.

(** /repo/sofar/sofa.py:1013-1060 *)
Definition type_errors (E : env) (o : sofa) (keys : list string) : res string :=
  rconcat (fun key => let? e := dgetE key (conv o) in
                      let? v := getattr o key in
                      Ok (type_error E key (e_type e) v)) keys.

(** ** 3. names, /repo/sofar/sofa.py:1078-1171 *)

(** [self._convention[key]["type"] == "attribute"],
    /repo/sofar/sofa.py:1085, 1101, 1120, 1141 *)

Definition is_attribute (c : convention) (key : string) : res bool :=
  let? e := dgetE key c in Ok (String.eqb (e_type e) "attribute").

(** attributes without variables, /repo/sofar/sofa.py:1081-1091 *)
Definition orphan_attribute (c : convention) (key : string) : res bool :=
  let? a := is_attribute c key in
  Ok (a && negb (Nat.eqb (count_char "_" key) 0)
      && negb (match before_last "_" key with
               | Some var => dmem var c
               | None => false
               end)
      && negb (startswith "GLOBAL_" key)).
(** attribute names without underscore, /repo/sofar/sofa.py:1097-1106 *)
Definition plain_attribute (c : convention) (key : string) : res bool :=
  let? a := is_attribute c key in Ok (a && Nat.eqb (count_char "_" key) 0).
(** variable names with underscores, /repo/sofar/sofa.py:1116-1124 *)
Definition bad_variable (c : convention) (key : string) : res bool :=
  let? a := is_attribute c key in
  Ok (negb a && has_char "_" (replace "Data_" "" key)).
(** reserved names, /repo/sofar/sofa.py:1132-1142 *)
Definition private_name (key : string) : bool :=
  startswith "PRIVATE" key || startswith "API" key.
(** /repo/sofar/sofa.py:1139-1142 *)
Definition bad_global (c : convention) (key : string) : res bool :=
  let? a := is_attribute c key in
  Ok ((startswith "GLOBAL" key && negb (startswith "GLOBAL_" key))
      || (startswith "GLOBAL" key && negb a)).

(** the loops /repo/sofar/sofa.py:1083-1091, 1099-1106, 1118-1124 *)
Definition bullets_if (f : string -> res bool) (keys : list string) : res string :=
  rconcat (fun k => let? b := f k in Ok (if b then bullet k else "")) keys.

(** /repo/sofar/sofa.py:1159, 1163 *)
Definition no_global (k : string) : string := replace "GLOBAL_" "" k.

(** names of custom data, /repo/sofar/sofa.py:1150-1164; [normative] are the keys of the
    convention of a newly created object *)
Definition custom_clash (normative : list string) (key : string) : bool :=
  smem (no_global key) (map no_global normative).

(** /repo/sofar/sofa.py:1094 *)
Definition msg_orphan := "Detected attributes with missing variables:" +++ nl.
(** /repo/sofar/sofa.py:1109-1113 *)
Definition msg_plain := "Detected attribute names with too many or little underscores. Names must have the form Variable_Attribute, Data_Attribute (one underscore), or Data_Variable_Attribute (two underscores):" +++ nl.
(** /repo/sofar/sofa.py:1127-1129 *)
Definition msg_variable := "Detected variable names with too many underscores.Underscores are only allowed for the variable Data:" +++ nl.
(** /repo/sofar/sofa.py:1145-1147 *)
Definition msg_reserved := "Detected variable or attribute with reserved key words PRIVATE, API, or GLOBAL:" +++ nl.
(** /repo/sofar/sofa.py:1167-1170 *)
Definition msg_custom := "Detected custom variable or attribute with reserved names. Custom data shall not have the same name as data contained in the convention itself:" +++ nl.

(** /repo/sofar/sofa.py:1081-1148 *)
Definition name_errors (o : sofa) (keys : list string) : res string :=
  let c := conv o in
  let? e1 := bullets_if (orphan_attribute c) keys in
  let? e2 := bullets_if (plain_attribute c) keys in
  let? e3 := bullets_if (bad_variable c) keys in
  let? e4 := rconcat (fun k =>
                let? b := bad_global c k in
                Ok ((if private_name k then bullet k else "")
                    +++ (if b then bullet k else ""))) keys in
  Ok (section msg_orphan e1 +++ section msg_plain e2
      +++ section msg_variable e3 +++ section msg_reserved e4).

(** /repo/sofar/sofa.py:1150-1171 *)
Definition custom_errors (normative : list string) (o : sofa) : string :=
  match custom o with
  | None => ""
  | Some cu =>
      section msg_custom
        (sconcat (fun k => if custom_clash normative k then bullet k else "")
                 (dkeys cu))
  end.

(** ** 4. dimensions, /repo/sofar/sofa.py:1173-1213 *)

(** /repo/sofar/sofa.py:1764-1788 [_get_size_and_shape_of_string_var]. Python's
    [max] over a numpy array compares its rows and raises if there are several
    rows with several elements. [numpy.vectorize(len)] raises for empty arrays
    and for elements that are not strings. *)
Definition elt_len (e : elt) : res nat :=
  match e with
  | EStr s | EByt s => Ok (String.length s)
  | _ => Err (Exn ETypeError "object has no len()")
  end.
(** [max], /repo/sofar/sofa.py:1779, 1782 *)
Definition max_list (l : list nat) : nat := fold_left Nat.max l 0.
(** /repo/sofar/sofa.py:1764-1788 *)
Definition size_and_shape (v : value) (key : string) : res (nat * list nat) :=
  match v with
  | VStr _ s => Ok (String.length s, [1; 1])
  | VArr a =>
      match a_data a with
      | [] => Err (Exn EValueError "vectorize on size 0 inputs")
      | d =>
          let? lens := rmap elt_len d in
          match a_shape a with
          | [] => Err (Exn ETypeError "iteration over a 0-d array")
          | n :: rest =>
              if (1 <? n)%nat && negb (Nat.eqb (prod rest) 1)
              then Err (Exn EValueError "truth value of an array is ambiguous")
              else Ok (max_list lens, a_shape a)
          end
      end
  | _ => Err (Exn ETypeError
           (key +++ " must be a string, numpy string array, or list of strings"))
  end.

(** keys of the variables, /repo/sofar/sofa.py:1182-1190; custom variables occur twice *)
Definition dim_keys (o : sofa) : list string :=
  filter (fun k => match dget k (conv o) with
                   | Some e => match e_dims e with Some _ => true | None => false end
                   | None => false
                   end) (dkeys (pub o))
  ++ match custom o with
     | None => []
     | Some cu =>
         map fst (filter (fun kv => negb (startswith "_" (fst kv))
                          && match e_dims (snd kv) with Some _ => true | None => false end)
                         cu)
     end.

(** [self._convention[key]["dimensions"]], a string for [dim_keys],
    /repo/sofar/sofa.py:1196, 1221 *)
Definition dims_of (o : sofa) (key : string) : res string :=
  let? e := dgetE key (conv o) in
  match e_dims e with
  | Some d => Ok d
  | None => Err (Exn EAttributeError "split")
  end.

(** [dimensions.split(", ")[0]], /repo/sofar/sofa.py:1200 *)
Definition first_alt (d : string) : string := hd "" (split ", " d).

(** state of the loop /repo/sofar/sofa.py:1192-1208: [_api] and [S], when it ends or raises *)
Definition dacc := (dict nat * nat)%type.
(** /repo/sofar/sofa.py:1193-1208 *)
Fixpoint dfold {A} (f : dacc -> A -> dacc * res unit) (l : list A) (s : dacc)
  : dacc * res unit :=
  match l with
  | [] => (s, Ok tt)
  | x :: t => match f s x with
              | (s1, Ok _) => dfold f t s1
              | (s1, Err e) => (s1, Err e)
              end
  end.

(** one character of the dimension string, /repo/sofar/sofa.py:1200-1208 *)
Definition detect_char (key : string) (v : value) (s : dacc) (ic : nat * ascii)
  : dacc * res unit :=
  let '(idx, c) := ic in
  let '(a, S_) := s in
  if negb (has_char c "ICS") && is_lower_ascii c then
    match (let? arr := nd_newaxis v 4 in
           match nth_error (a_shape arr) idx with
           | Some n => Ok n
           | None => Err (Exn EIndexError "tuple index out of range")
           end) with
    | Ok n => ((dset (str1 (upper_char c)) n a, S_), Ok tt)
    | Err e => (s, Err e)
    end
  else if Ascii.eqb c "S" then
    match size_and_shape v key with
    | Ok (n, _) => ((a, Nat.max S_ n), Ok tt)
    | Err e => (s, Err e)
    end
  else (s, Ok tt).

(** [enumerate], /repo/sofar/sofa.py:1200 *)
Definition enum {A} (l : list A) : list (nat * A) := combine (seq 0 (List.length l)) l.

(** /repo/sofar/sofa.py:1193-1208, one variable *)
Definition detect_key (o : sofa) (s : dacc) (key : string) : dacc * res unit :=
  match (let? v := getattr o key in let? d := dims_of o key in Ok (v, d)) with
  | Err e => (s, Err e)
  | Ok (v, d) => dfold (detect_char key v) (enum (chars (first_alt d))) s
  end.

(** /repo/sofar/sofa.py:1192-1208 *)
Definition detect (o : sofa) : dacc * res unit :=
  dfold (detect_key o) (dim_keys o) ([], 0).

(** fixed sizes, /repo/sofar/sofa.py:1210-1213 *)
Definition fixed_sizes (s : dacc) : dict nat :=
  dset "S" (snd s) (dset "I" 1 (dset "C" 3 (fst s))).

(** ** 5. shapes, /repo/sofar/sofa.py:1215-1275 *)

(** /repo/sofar/sofa.py:1220-1239 *)

Definition shape_act (o : sofa) (key : string) : res (list nat) :=
  let? e := dgetE key (conv o) in
  let? d := dims_of o key in
  let? v := getattr o key in
  if smem (e_type e) ["attribute"; "string"] then
    let? ss := size_and_shape v key in Ok (snd ss)
  else if (1 <? String.length (hd "" (split "," d)))%nat then
    let? a := atleast_nd v 4 in Ok (a_shape a)
  else let? a := np_array v in Ok [a_size a].

(** /repo/sofar/sofa.py:1244-1248; 'S' counts as 1 *)
Definition shape_ref (api : dict nat) (dim : string) : res (list nat) :=
  rmap (fun c => if Ascii.eqb c "S" then Ok 1
                 else dgetE (str1 (upper_char c)) api) (chars dim).

(** crop or append singleton dimensions, /repo/sofar/sofa.py:1250-1254 *)
Definition shape_fit (act : list nat) (n : nat) : list nat :=
  let s := firstn n act in s ++ repeat 1 (n - List.length s).

(** first alternative that matches, /repo/sofar/sofa.py:1241-1260 *)
Fixpoint match_alt (api : dict nat) (act : list nat) (alts : list string)
  : res (option string) :=
  match alts with
  | [] => Ok None
  | d :: t =>
      let? r := shape_ref api d in
      if shape_eqb (shape_fit act (List.length r)) r then Ok (Some (upper d))
      else match_alt api act t
  end.

(** "(M=2, C=3)", /repo/sofar/sofa.py:1263-1267 *)
Definition dims_verbose (api : dict nat) (d : string) : res string :=
  let? l := rmap (fun alt =>
      let? p := rmap (fun c => let? n := dgetE (str1 c) api in
                               Ok (str1 c +++ "=" +++ nat_str n)) (chars alt) in
      Ok ("(" +++ join ", " p +++ ")"))
    (split "," (replace " " "" (upper d))) in
  Ok (join ", " l).

(** One variable: the new [_dimensions] and the error message. The shape in
    the message is the one compared last.
    /repo/sofar/sofa.py:1218-1271 *)
Definition check_shape (o : sofa) (api : dict nat) (key : string)
  : res (option string * string) :=
  let? act := shape_act o key in
  let? d := dims_of o key in
  let alts := split ", " d in
  let? m := match_alt api act alts in
  match m with
  | Some dm => Ok (Some dm, "")
  | None =>
      let? verb := dims_verbose api d in
      Ok (None, "- " +++ key +++ " has shape "
                +++ tuple_str (shape_fit act (String.length (last alts "")))
                +++ " but must have " +++ verb +++ nl)
  end.

(** [_dimensions] and the error text after the loop or when it raises,
    /repo/sofar/sofa.py:1217-1271 *)
Fixpoint check_shapes (o : sofa) (api : dict nat) (keys : list string)
  (d : dict string) (err : string) : dict string * res string :=
  match keys with
  | [] => (d, Ok err)
  | k :: t =>
      match check_shape o api k with
      | Err e => (d, Err e)
      | Ok (Some dm, _) => check_shapes o api t (dset k dm d) err
      | Ok (None, m) => check_shapes o api t d (err +++ m)
      end
  end.

(** ** 6. rules, /repo/sofar/sofa.py:1277-1370 *)

(** /repo/sofar/sofa.py:1285, 1311, 1351 *)

Definition sofar_name (key : string) : string :=
  replace_char ":" "_" (replace_char "." "_" key).

(** /repo/sofar/sofa.py:1476-1518 [_verify_unit] *)
Definition verify_unit (test : string) (ref : list string) (al : dict string)
  : res bool :=
  match ref with
  | [r] =>
      let ur := re_split_comma r in
      let ut := re_split_comma test in
      if negb (Nat.eqb (List.length ur) (List.length ut)) then Ok false
      else Ok (forallb (fun p => match dget (fst p) al with
                                 | Some u => String.eqb u (snd p)
                                 | None => false
                                 end) (combine ut ur))
  | _ => Err (Exn ETypeError "ref must be a list of length 1 containing a str")
  end.

(** /repo/sofar/sofa.py:1427-1474 [_verify_value]. Values that are not strings
    raise TypeError (for arrays also ValueError in Python; a string array with
    one element that equals an allowed value is accepted by Python, this case
    is not modelled). *)
Definition verify_value (test : value) (ref : option (list string))
    (al : dict string) (key : string) : res bool :=
  match ref with
  | None => Ok true
  | Some ref =>
      match test with
      | VStr _ s =>
          if smem s ref then Ok true
          else if smem key ["GLOBAL_DataType"; "GLOBAL_SOFAConventions"] then Ok false
          else if smem (lower s) ref then Ok true
          else if endswith "Units" key then verify_unit (lower s) ref al
          else Ok false
      | VArr _ => Err (Exn ENotModelled "array in restricted entry")
      | _ => Err (Exn ETypeError "At this point, only string data should remain. Please report the issue: github.com/pyfar/sofar/issues")
      end
  end.

(** lower case value for dependencies, /repo/sofar/sofa.py:1299-1303 *)
Definition dep_test (test : value) : value :=
  match test with
  | VStr np s =>
      if smem (lower s) ["cartesian"; "spherical"; "spherical harmonics"]
      then VStr false (lower s) else test
  | _ => test
  end.

(** [rules[key]["specific"][test].items()] or nothing, /repo/sofar/sofa.py:1320-1325; testing an
    array for membership in a dict raises TypeError *)
Definition specific_items (r : rule) (test : value) : res (dict dep) :=
  match r_specific r with
  | None => Ok []
  | Some sp =>
      match test with
      | VStr _ s => Ok (match dget s sp with Some d => d | None => [] end)
      | VArr _ => Err (Exn ETypeError "unhashable type")
      | _ => Ok []
      end
  end.

(** /repo/sofar/sofa.py:1327-1370 *)
Definition check_dep (E : env) (o : sofa) (api : dict nat) (key : string)
    (test : value) (kd : string * dep) : res string :=
  match snd kd with
  | DepDims l =>
      rconcat (fun dr =>
        let? act := dgetE (fst dr) api in
        Ok (if nat_mem act (fst (snd dr)) then "" else
              "- Dimension " +++ fst dr +++ " is of size " +++ nat_str act
              +++ " but must be " +++ snd (snd dr) +++ " if " +++ key
              +++ " is " +++ py_str E test +++ nl)) l
  | DepVal ref =>
      let kds := sofar_name (fst kd) in
      if negb (hasattr o kds) then
        Ok ("- " +++ kds +++ " must be given if " +++ key +++ " is "
            +++ py_str E test +++ nl)
      else
        match ref with
        | None => Ok ""
        | Some rl =>
            let? td := getattr o kds in
            let? ok := verify_value td ref (aliases E) kds in
            Ok (if ok then "" else
                  "- " +++ kds +++ " is " +++ py_str E td +++ " but must be "
                  +++ join ", " rl +++ " if " +++ key +++ " is "
                  +++ py_str E test +++ nl)
        end
  end.

(** /repo/sofar/sofa.py:1282-1370 *)
Definition check_rule (E : env) (o : sofa) (api : dict nat)
    (kr : string * rule) : res string :=
  let key := sofar_name (fst kr) in
  let r := snd kr in
  if negb (hasattr o key) then Ok ""
  else
    let? test := getattr o key in
    let? ok := verify_value test (r_value r) (aliases E) key in
    let e1 := if ok then "" else
        "- " +++ key +++ " is " +++ py_str E test +++ " but must be "
        +++ join ", " (match r_value r with Some l => l | None => [] end) +++ nl in
    let test := dep_test test in
    let e2 := sconcat (fun kd =>
        let kd := sofar_name kd in
        if hasattr o kd then "" else
          "- " +++ kd +++ " must be given if " +++ key +++ " is in SOFA object" +++ nl)
        (r_general r) in
    let? items := specific_items r test in
    let? e3 := rconcat (check_dep E o api key test) items in
    Ok (e1 +++ e2 +++ e3).

(** ** 7. lower case units, /repo/sofar/sofa.py:1372-1384 *)

(** /repo/sofar/sofa.py:1377-1384 *)
Definition check_units (o : sofa) : res string :=
  rconcat (fun kv =>
    match snd kv with
    | VStr _ u => Ok (if String.eqb (lower u) u then "" else
                        "- " +++ fst kv +++ " is " +++ u
                        +++ " but must contain only lower case letters when writing SOFA files to disk." +++ nl)
    | _ => Err (Exn EAttributeError "lower")
    end) (filter (fun kv => endswith "Units" (fst kv)) (pub o)).

(** ** 8. deprecations, /repo/sofar/sofa.py:1390-1413 *)

(** /repo/sofar/sofa.py:1393-1404 *)
Definition deprecation_msg (E : env) (o : sofa) : res string :=
  let? c := getattr o "GLOBAL_SOFAConventions" in
  match c with
  | VStr _ c =>
      Ok (match dget c (deprecations E) with
          | Some new => "Detected deprecations:" +++ nl +++ "- GLOBAL_SOFAConventions is "
              +++ c +++ ", which is deprecated. Use Sofa.upgrade_convention() to upgrade to "
              +++ new
          | None => ""
          end)
  | _ => Err (Exn ETypeError "unhashable type")
  end.

(** /repo/sofar/sofa.py:1406-1413 *)
Definition preliminary_msg (E : env) (o : sofa) : res string :=
  let? v := getattr o "GLOBAL_SOFAConventionsVersion" in
  match parse_float (py_str E v) with
  | None => Err (Exn EValueError "could not convert string to float")
  | Some d =>
      Ok (if dec_ltb d (Dec 1%N 0)
          then nl +++ nl +++ "Detected preliminary conventions version "
               +++ py_str E v +++ ":" +++ nl
               +++ " - Upgrade data to version >= 1.0 if possible. Preliminary conventions might change in the future, which could invalidate data that was written before the changes."
          else "")
  end.

(** ** 9. issues, /repo/sofar/sofa.py:1554-1589 [_verify_handle_issues] *)

(** initial messages, /repo/sofar/sofa.py:976-978 *)
Definition err_head : string := nl +++ "ERRORS" +++ nl +++ "------" +++ nl.
(** /repo/sofar/sofa.py:978 *)
Definition warn_head : string := nl +++ "WARNINGS" +++ nl +++ "--------" +++ nl.

(** /repo/sofar/sofa.py:1554-1589 *)
Definition handle_issues (warning_msg error_msg : string) (h : handling)
  : M (bool * option string) :=
  let w := negb (String.eqb warning_msg warn_head) in
  let e := negb (String.eqb error_msg err_head) in
  do_ when (w && h_raise h) (emit (EvWarn warning_msg));
  do_ when (w && h_print h) (emit (EvPrint warning_msg));
  do_ when (e && h_raise h) (raise (Exn EValueError error_msg));
  do_ when (e && h_print h) (emit (EvPrint error_msg));
  ret (e, if w && e then Some (error_msg +++ nl +++ warning_msg)
          else if w then Some warning_msg
          else if e then Some error_msg
          else None).

(** /repo/sofar/sofa.py:1004-1005 *)
Definition msg_missing := "Detected missing mandatory data call sofa.add_missing() to fix this):" +++ nl.
(** /repo/sofar/sofa.py:1008 *)
Definition msg_added := "Added mandatory data with default values:" +++ nl.
(** /repo/sofar/sofa.py:1063 *)
Definition msg_type := "Detected data of wrong type:" +++ nl.
(** /repo/sofar/sofa.py:1274 *)
Definition msg_shape := "Detected variables of wrong shape:" +++ nl.
(** /repo/sofar/sofa.py:1387 *)
Definition msg_rules := "Detected violations of the SOFA convention:" +++ nl.

(** Steps 4 and 5 with their effect on [_dimensions], [_api] and the
    protection; returns the error text.
    /repo/sofar/sofa.py:1173-1275 *)
Definition verify_dims : M string :=
  do_ modify (fun o => with_prot (with_api (with_dims o (Some [])) (Some [])) true);
  do o <- get;
  let '(s, r) := detect o in
  do_ modify (fun o => with_api o (Some (fst s)));
  do_ lift r;
  let a := fixed_sizes s in
  do_ modify (fun o => with_api o (Some a));
  let '(d, r) := check_shapes o a (dim_keys o) [] "" in
  do_ modify (fun o => with_dims o (Some d));
  lift r.

(** /repo/sofar/sofa.py:896-1425 [verify]. [norm] gives the keys of the
    convention of [sf.Sofa(convention, version)], needed in step 3 for objects
    with custom data (see [verify] below). *)
Definition verify_gen (norm : value -> value -> list event * res (list string))
    (E : env) (h : handling) (m : vmode) : M (option string) :=
  do_ reset_convention E;
  do o <- get;
  let keys := dkeys (pub o) in
  let miss := missing o in
  do_ when (negb (h_raise h)) (add_defaults miss);
  let miss_txt := sconcat (fun kv => bullet (fst kv)) miss in
  do o <- get;
  do terr <- lift (type_errors E o keys);
  let err := (if h_raise h then section msg_missing miss_txt else "")
             +++ section msg_type terr in
  let wrn := if h_raise h then "" else section msg_added miss_txt in
  if negb (String.eqb (err_head +++ err) err_head) && negb (h_ignore h)
  then
    do r <- handle_issues warn_head (err_head +++ err) h;
    ret (if h_print h then None else snd r)
  else
    do o <- get;
    do nerr <- lift (name_errors o keys);
    do cerr <-
      match custom o with
      | None => ret ""
      | Some _ =>
          do c <- lift (getattr o "GLOBAL_SOFAConventions");
          do v <- lift (getattr o "GLOBAL_SOFAConventionsVersion");
          let '(ev, r) := norm c v in
          do_ mfor ev emit;
          do nk <- lift r;
          ret (custom_errors nk o)
      end;
    do serr <- verify_dims;
    do o <- get;
    let a := match api o with Some a => a | None => [] end in
    do rerr <- lift (rconcat (check_rule E o a) (rules E));
    do uerr <- lift (if m_write m then check_units o else Ok "");
    do dmsg <- lift (deprecation_msg E o);
    do pmsg <- lift (preliminary_msg E o);
    let err := err +++ nerr +++ cerr +++ section msg_shape serr
               +++ section msg_rules (rerr +++ uerr)
               +++ (if m_write m then dmsg else "") in
    let wrn := wrn +++ (if m_write m then "" else dmsg) +++ pmsg in
    if h_ignore h then ret None
    else
      do r <- handle_issues (warn_head +++ wrn) (err_head +++ err) h;
      ret (if fst r && h_return h then snd r else None).

(** verify of an object without custom data,
    /repo/sofar/sofa.py:896-1425 *)
Definition verify0 : env -> handling -> vmode -> M (option string) :=
  verify_gen (fun _ _ => ([], Err (Exn ENotModelled "custom data"))).

(** ** Creating objects *)

(** verify argument of Sofa, read_sofa and upgrade_convention,
    /repo/sofar/sofa.py:92-93, 731, /repo/sofar/io.py:13 *)
Inductive vopt := VAuto | VYes | VNo.

(** /repo/sofar/sofa.py:1755 *)
Definition api_name := "sofar SOFA API for Python (pyfar.org)".

(** default value of an entry in a new object, /repo/sofar/sofa.py:1741-1745 *)
Definition init_default (e : entry) : res value :=
  match e_default e with
  | VList l =>
      match e_dims e with
      | None => Err (Exn EAttributeError "split")
      | Some d =>
          let? a := atleast_nd (VList l) (String.length (first_alt d)) in
          Ok (VArr a)
      end
  | v => Ok v
  end.

(** /repo/sofar/sofa.py:1723-1762 [_convention_to_sofa] *)
Definition convention_to_sofa (E : env) (mandatory : bool) : M unit :=
  do o <- get;
  do_ mfor (filter (fun kv => is_mandatory (e_flags (snd kv)) || negb mandatory)
                   (conv o))
    (fun kv => do v <- lift (init_default (snd kv)); set_attr (fst kv) v);
  do_ set_protected false;
  do_ set_attr "GLOBAL_DateCreated" (VStr false (now E));
  do_ set_attr "GLOBAL_DateModified" (VStr false (now E));
  do_ set_attr "GLOBAL_APIName" (VStr false api_name);
  do_ set_attr "GLOBAL_APIVersion" (VStr false (sofar_version E));
  do_ set_attr "GLOBAL_ApplicationName" (VStr false "Python");
  do_ set_attr "GLOBAL_ApplicationVersion" (VStr false (python_version E));
  set_protected true.

(** /repo/sofar/sofa.py:121-125 *)
Definition msg_preliminary (v : string) :=
  "Detected preliminary conventions version " +++ v +++ ". "
  +++ "Upgrade data to version >= 1.0 if possible. Preliminary conventions might change in the future, which could invalidate data that was written before the changes.".

(** [parse(version) >= parse('1.0')] for a value,
    /repo/sofar/sofa.py:112 *)
Definition stable_version (v : value) : res bool :=
  match v with
  | VStr _ s => version_geb s "1.0"
  | _ => Err (Exn ETypeError "expected string or bytes-like object")
  end.

(** /repo/sofar/sofa.py:100-128 *)
Definition init_body (E : env) (cv : convention) (mandatory : bool) (verify : vopt)
  : M unit :=
  do_ modify (fun o => with_ro (with_conv o cv) (ro_of_convention cv));
  do_ convention_to_sofa E mandatory;
  do e <- lift (dgetE "GLOBAL_SOFAConventionsVersion" cv);
  let v := e_default e in
  do ver <- match verify with
            | VAuto => lift (stable_version v)
            | VYes => ret true
            | VNo => ret false
            end;
  do_ (if ver && negb mandatory
       then do_ verify0 E HRaise VRead; ret tt
       else do s <- lift (stable_version v);
            when (negb s) (emit (EvWarn (msg_preliminary (py_str E v)))));
  set_protected true.

(** /repo/sofar/sofa.py:92-131 [__init__] with a convention; the constructor
    either returns an object or raises *)
Definition sofa_init (E : env) (c : string) (mandatory : bool) (version : string)
    (verify : vopt) : list event * res sofa :=
  match load_convention E c version with
  | Err e => ([], Err e)
  | Ok cv =>
      match init_body E cv mandatory verify empty_sofa with
      | (o, ev, Ok _) => (ev, Ok o)
      | (_, ev, Err e) => (ev, Err e)
      end
  end.

(** [sf.Sofa(c, version=v)._convention.keys()], /repo/sofar/sofa.py:1155-1158 *)
Definition normative_keys (E : env) (c v : value) : list event * res (list string) :=
  match c, v with
  | VStr _ c, VStr _ v =>
      match sofa_init E c false v VAuto with
      | (ev, Ok o) => (ev, Ok (dkeys (conv o)))
      | (ev, Err e) => (ev, Err e)
      end
  | _, _ => ([], Err (Exn EValueError "Version not found"))
  end.

(** /repo/sofar/sofa.py:896-1425 [verify] *)
Definition verify (E : env) (h : handling) (m : vmode) : M (option string) :=
  verify_gen (normative_keys E) E h m.

(** ** Dimensions *)

(** /repo/sofar/sofa.py:293-306 [_update_dimensions] *)
Definition update_dimensions (E : env) : M unit :=
  do issues <- verify E HReturn VWrite;
  do o <- get;
  match issues with
  | Some i =>
      if contains "data of wrong type" i || contains "variables of wrong shape" i
         || match api o with None => true | Some _ => false end
      then raise (Exn EValueError "Dimensions can not be shown because variables of wrong type or shape were detected. Call Sofa.verify() for more information.")
      else ret tt
  | None => ret tt
  end.

(** /repo/sofar/sofa.py:265-291 [get_dimension] *)
Definition get_dimension (E : env) (d : string) : M nat :=
  do_ update_dimensions E;
  do o <- get;
  match api o with
  | None => raise (Exn EAttributeError "_api")
  | Some a => match dget d a with
              | Some n => ret n
              | None => raise (Exn EValueError (d +++ " is not a valid dimension. See Sofa.list_dimensions for a list of valid dimensions."))
              end
  end.

(** ** Printed information *)

(** [value.size], [None] if there is no such attribute (plain strings and None).
    numpy strings and numpy scalars have size 1.
    /repo/sofar/sofa.py:461, 482 *)
Definition value_size (v : value) : option nat :=
  match v with
  | VStr false _ => None
  | VStr true _ => Some 1
  | VScal EObj => None
  | VScal _ => Some 1
  | VArr a => Some (a_size a)
  | VList _ => None
  end.

(** /repo/sofar/sofa.py:345-350, 448-453 *)
Definition header (E : env) (o : sofa) : res string :=
  let? c := getattr o "GLOBAL_SOFAConventions" in
  let? v := getattr o "GLOBAL_SOFAConventionsVersion" in
  let? s := getattr o "GLOBAL_Version" in
  Ok (py_str E c +++ " " +++ py_str E v +++ " (SOFA version " +++ py_str E s +++ ")" +++ nl).

(** shape text of inspect, /repo/sofar/sofa.py:469-480; [zip] stops at the
    shorter list *)
Definition shape_verbose (shape : list nat) (dimension : string) : string :=
  let shape := pad1 (String.length dimension) shape in
  let s := "(" +++ sconcat (fun p => str1 (snd p) +++ "=" +++ nat_str (fst p) +++ ", ")
                           (combine shape (chars dimension)) in
  drop_end 2 s +++ ")" +++ nl.

(** text of one entry in inspect, /repo/sofar/sofa.py:455-484 *)
Definition inspect_entry (E : env) (o : sofa) (kv : string * value) : res string :=
  let '(key, v) := kv in
  let? e := dgetE key (conv o) in
  let? scalar :=
    if String.eqb (e_type e) "attribute" then Ok true
    else match value_size v with
         | Some n => Ok (Nat.eqb n 1)
         | None => Err (Exn EAttributeError "size")
         end in
  if scalar then Ok (key +++ " : " +++ py_str E v +++ nl)
  else
    match v with
    | VArr a =>
        match dims o with
        | None => Err (Exn EAttributeError "_dimensions")
        | Some ds =>
            let? d := dgetE key ds in
            Ok (key +++ " : " +++ shape_verbose (a_shape a) d
                +++ (if (a_size a <? 7)%nat
                     then "  " +++ replace nl (nl +++ "  ")
                                     (str_of E (VArr (reshape a (sh_squeeze (a_shape a)))))
                          +++ nl
                     else ""))
        end
    | _ => Err (Exn EAttributeError "shape")
    end.

(** /repo/sofar/sofa.py:409-492 [inspect] without output file *)
Definition inspect (E : env) (h : handling) : M unit :=
  do_ verify E h VWrite;
  do o <- get;
  do hd <- lift (header E o);
  do txt <- lift (rconcat (inspect_entry E o) (pub o));
  emit (EvPrint (hd +++ sconcat (fun _ => "-") (chars hd) +++ nl +++ txt)).

(** selection of entries in info, /repo/sofar/sofa.py:358-368 *)
Definition info_skip (info : string) (e : entry) : bool :=
  (negb (is_mandatory (e_flags e)) && String.eqb info "mandatory")
  || (is_mandatory (e_flags e) && String.eqb info "optional")
  || (negb (is_read_only (e_flags e)) && String.eqb info "read only")
  || (String.eqb (e_type e) "attribute" && String.eqb info "data").

(** text of one entry, /repo/sofar/sofa.py:370-386 *)
Definition info_entry (info key : string) (e : entry) : string :=
  if info_skip info e then "" else
  key +++ " : " +++ e_type e
  +++ match e_dims e with
      | Some d => if String.eqb d "" then "" else " (" +++ upper d +++ ")"
      | None => ""
      end
  +++ (if is_mandatory (e_flags e) then ", mandatory" else ", optional")
  +++ (if is_read_only (e_flags e) then ", read only" else "")
  +++ match e_comment e with
      | Some c => if String.eqb c "" then nl else nl +++ "    " +++ c +++ nl
      | None => nl
      end.

(** /repo/sofar/sofa.py:396-399 *)
Definition bool_str (b : bool) : string := if b then "True" else "False".

(** text for a single name, /repo/sofar/sofa.py:388-403 *)
Definition info_detail (E : env) (key : string) (e : entry) : string :=
  key +++ nl +++ "    type: " +++ e_type e +++ nl
  +++ "    mandatory: " +++ bool_str (is_mandatory (e_flags e)) +++ nl
  +++ "    read only: " +++ bool_str (is_read_only (e_flags e)) +++ nl
  +++ "    default: " +++ py_str E (e_default e) +++ nl
  +++ "    shape: " +++ upper (match e_dims e with Some d => d | None => "None" end) +++ nl
  +++ "    comment: " +++ match e_comment e with Some c => c | None => "None" end +++ nl.

(** /repo/sofar/sofa.py:308-407 [info] *)
Definition info (E : env) (what : string) : M unit :=
  do_ emit (EvWarn "Sofa.info() will be deprecated in sofar 1.3.0 The conventions are now documented at https://sofar.readthedocs.io/en/stable/resources/conventions.html");
  do o <- get;
  do hd <- lift (header E o);
  let hd := hd +++ sconcat (fun _ => "-") (chars hd) +++ nl in
  if smem what ["all"; "mandatory"; "optional"; "read only"; "data"] then
    do txt <- lift (rconcat (fun k => let? e := dgetE k (conv o) in
                                      Ok (info_entry what k e)) (dkeys (pub o)));
    emit (EvPrint (hd +++ "showing " +++ what +++ " entries : type (shape), flags"
                   +++ nl +++ nl +++ txt))
  else if smem what (dkeys (pub o)) then
    do txt <- lift (rconcat (fun k => let? e := dgetE k (conv o) in
                                      Ok (info_detail E k e))
                            (filter (contains what) (dkeys (pub o))));
    emit (EvPrint (hd +++ txt))
  else raise (Exn EValueError ("info='" +++ what +++ "' is invalid")).

(** /repo/sofar/sofa.py:188-263 [list_dimensions] *)
Definition list_dimensions (E : env) : M unit :=
  do_ update_dimensions E;
  do o <- get;
  do dt <- lift (getattr o "GLOBAL_DataType");
  do dt <- match dt with
           | VStr _ s => ret s
           | _ => raise (Exn EAttributeError "startswith")
           end;
  let n_verbose := if startswith "FIR" dt then Some "samples"
                   else if startswith "TF" dt then Some "frequencies"
                   else if startswith "SOS" dt then Some "SOS coefficients"
                   else None in
  let harmonic := fun key =>
    let? t := getattr o key in
    match t with
    | VStr _ s => Ok (contains "harmonic" s)
    | _ => Err (Exn ENotModelled "'harmonic' in value")
    end in
  do r <- lift (harmonic "ReceiverPosition_Type");
  do e <- lift (harmonic "EmitterPosition_Type");
  do n_verbose <- match n_verbose with
                  | Some n => ret n
                  | None => raise (Exn EUnboundLocalError "N_verbose")
                  end;
  let names := [("M", "measurements"); ("N", n_verbose);
    ("R", if r then "receiver spherical harmonics coefficients" else "receiver");
    ("E", if e then "emitter spherical harmonics coefficients" else "emitter");
    ("S", "maximum string length"); ("C", "coordinate dimensions, fixed");
    ("I", "single dimension, fixed")] in
  match api o with
  | None => raise (Exn EAttributeError "_api")
  | Some a =>
      emit (EvPrint (sconcat (fun kn =>
        let '(k, n) := kn in
        k +++ " = " +++ nat_str n +++ " "
        +++ match dget k names with Some d => d | None => "custom dimension" end
        +++ match find (fun ke => match e_dims (snd ke) with
                                  | Some d => contains (lower k) d
                                  | None => false
                                  end) (conv o) with
            | Some (k2, e2) => " (set by " +++ k2 +++ " of dimension "
                +++ upper (match e_dims e2 with Some d => d | None => "" end) +++ ")"
            | None => ""
            end
        +++ nl) a))
  end.
