(** [equals], /repo/sofar/utils.py:129-239. *)
From Verif Require Import Base PyStr PyNum NdArray Sofa.
From Coq Require Import ZArith.
Open Scope string_scope.
Open Scope list_scope.

(** ** Comparing values *)

(** strings in numpy arrays of type S have no trailing NULs,
    used by [astype("S")], /repo/sofar/utils.py:224 *)
Fixpoint strip_nul (s : string) : string :=
  match s with
  | EmptyString => EmptyString
  | String c t =>
      match strip_nul t with
      | EmptyString => if Ascii.eqb c Ascii.zero then EmptyString else String c EmptyString
      | t' => String c t'
      end
  end.

(** /repo/sofar/utils.py:224, [astype("S")] *)
Definition is_ascii (c : ascii) : bool := (nat_of_ascii c <? 128)%nat.

(** element of [astype("S")]: [UnicodeEncodeError] for other than ASCII
    characters. Simplification: numbers are not modelled.
    /repo/sofar/utils.py:224 *)
Definition to_bytes (e : elt) : res string :=
  match e with
  | EStr s => if forallb is_ascii (chars s) then Ok (strip_nul s)
              else Err (Exn EUnicodeError s)
  | EByt s => Ok (strip_nul s)
  | _ => Err (Exn ENotModelled "astype")
  end.

(** number as double. Simplification: complex numbers are not modelled.
    Comparing strings raises TypeError.
    /repo/sofar/utils.py:215 *)
Definition to_double (e : elt) : res f64 :=
  match e with
  | EInt z => Ok (f_of_Z z)
  | EFlt f => Ok f
  | EBool b => Ok (f_of_Z (if b then 1 else 0))
  | EStr _ | EByt _ => Err (Exn ETypeError "ufunc 'isfinite' not supported")
  | ECplx _ _ | EObj => Err (Exn ENotModelled "assert_allclose")
  end.

(** the array of a stored value, [numpy.squeeze(value)]. Simplification: masked
    arrays are not modelled.
    /repo/sofar/utils.py:215, 224 *)
Definition squeezed (v : value) : res (list nat * list elt) :=
  let? a := np_array v in
  if a_mask a then Err (Exn ENotModelled "masked array")
  else Ok (sh_squeeze (a_shape a), a_data a).

(** [all(f(x, y))] with the shorter array repeated,
    /repo/sofar/utils.py:215, 223 *)
Definition all_pairs {A} (f : A -> A -> bool) (x y : list A) : bool :=
  let n := Nat.max (List.length x) (List.length y) in
  forallb (fun i =>
    match nth_error x (i mod List.length x), nth_error y (i mod List.length y) with
    | Some p, Some q => f p q
    | _, _ => true
    end) (seq 0 (if Nat.eqb (List.length x) 0 || Nat.eqb (List.length y) 0 then 0 else n)).

(** numpy.testing.assert_allclose: [false] if AssertionError is raised, arrays
    with different shapes differ unless one of them is a scalar,
    /repo/sofar/utils.py:215 *)
Definition allclose (x y : list nat * list elt) : res bool :=
  match fst x, fst y with
  | _ :: _, _ :: _ => if shape_eqb (fst x) (fst y)
      then let? p := rmap to_double (snd x) in let? q := rmap to_double (snd y) in
           Ok (all_pairs isclose p q)
      else Ok false
  | _, _ => let? p := rmap to_double (snd x) in let? q := rmap to_double (snd y) in
            Ok (all_pairs isclose p q)
  end.

(** broadcasting of shapes without singleton dimensions: the shorter is the end
    of the longer,
    /repo/sofar/utils.py:223-224 *)
Definition broadcasts (s t : list nat) : bool :=
  shape_eqb (skipn (List.length s - List.length t) s) t
  || shape_eqb s (skipn (List.length t - List.length s) t).

(** [numpy.all(x.astype("S") == y.astype("S"))]: ValueError for shapes that can
    not be broadcast (numpy >= 1.25),
    /repo/sofar/utils.py:221-224 *)
Definition same_strings (x y : list nat * list elt) : res bool :=
  let? p := rmap to_bytes (snd x) in
  let? q := rmap to_bytes (snd y) in
  if broadcasts (fst x) (fst y) then Ok (all_pairs String.eqb p q)
  else Err (Exn EValueError "shape mismatch: objects cannot be broadcast").

(** [not (a != b)] for attributes. Simplification: only strings are modelled.
    /repo/sofar/utils.py:207 *)
Definition same_attr (x y : value) : res bool :=
  match x, y with
  | VStr _ s, VStr _ t => Ok (String.eqb s t)
  | _, _ => Err (Exn ENotModelled "attribute")
  end.

(** ** Selecting entries, /repo/sofar/utils.py:161-180 *)

(** [sofa._convention[k]["type"]], /repo/sofar/utils.py:172, 174, 200-201 *)
Definition entry_type (o : sofa) (k : string) : res string :=
  let? e := dgetE k (conv o) in Ok (e_type e).

(** list comprehension with a condition that may raise,
    /repo/sofar/utils.py:171-174 *)
Fixpoint rfilter {A} (f : A -> res bool) (l : list A) : res (list A) :=
  match l with
  | [] => Ok []
  | x :: t => let? b := f x in let? r := rfilter f t in Ok (if b then x :: r else r)
  end.

(** /repo/sofar/utils.py:163-164 *)
Definition public_keys (o : sofa) : list string :=
  filter (fun k => negb (startswith "_" k)) (dkeys (pub o)).

(** /repo/sofar/utils.py:163-180 *)
Definition select (exclude : option string) (o : sofa) : res (list string) :=
  match exclude with
  | None => Ok (public_keys o)
  | Some x =>
      if String.eqb (upper x) "GLOBAL"
      then Ok (filter (fun k => negb (startswith "GLOBAL_" k)) (public_keys o))
      else if String.eqb (upper x) "ATTR"
      then rfilter (fun k => let? t := entry_type o k in Ok (negb (String.eqb t "attribute")))
                   (public_keys o)
      else if String.eqb (upper x) "DATE"
      then Ok (filter (fun k => negb (contains "Date" k)) (public_keys o))
      else Err (Exn EValueError ("exclude is " +++ x +++ " but must be GLOBAL, DATE, or ATTR"))
  end.

(** Comparison of one entry, /repo/sofar/utils.py:197-231: the message if it
    differs. The missing f in two of the messages is in the source. *)
Definition compare_key (a b : sofa) (k : string) : res (option string) :=
  let? x := getattr a k in
  let? y := getattr b k in
  let? ta := entry_type a k in
  let? tb := entry_type b k in
  if String.eqb ta "attribute" && String.eqb tb "attribute" then
    let? r := same_attr x y in
    Ok (if r then None else Some ("not identical: different values for " +++ k))
  else if String.eqb ta "double" && String.eqb tb "double" then
    let? p := squeezed x in let? q := squeezed y in let? r := allclose p q in
    Ok (if r then None else Some "not identical: different values for {key}")
  else if String.eqb ta "string" && String.eqb tb "string" then
    let? p := squeezed x in let? q := squeezed y in let? r := same_strings p q in
    Ok (if r then None else Some "not identical: different values for {key}")
  else Ok (Some ("not identical: " +++ k +++ " has different data types ("
                 +++ ta +++ ", " +++ tb +++ ")")).

(** /repo/sofar/utils.py:236-239 [_equals_raise_warning] *)
Definition raise_warning (msg : string) (verbose : bool) : list event :=
  if verbose then [EvWarn msg] else [].

(** /repo/sofar/utils.py:194-233 *)
Fixpoint compare_keys (a b : sofa) (verbose : bool) (l : list string) (acc : bool)
  : list event * res bool :=
  match l with
  | [] => ([], Ok acc)
  | k :: t =>
      match compare_key a b k with
      | Err e => ([], Err e)
      | Ok None => compare_keys a b verbose t acc
      | Ok (Some msg) =>
          let (ev, r) := compare_keys a b verbose t false in
          (raise_warning msg verbose ++ ev, r)
      end
  end.

(** /repo/sofar/utils.py:129-233 [equals] *)
Definition equals (a b : sofa) (verbose : bool) (exclude : option string)
  : list event * res bool :=
  match select exclude a with
  | Err e => ([], Err e)
  | Ok ka =>
      match select exclude b with
      | Err e => ([], Err e)
      | Ok kb =>
          if negb (Nat.eqb (List.length ka) (List.length kb)) then
            (raise_warning ("not identical: sofa_a has " +++ nat_str (List.length ka) +++
               " attributes for comparison and sofa_b has " +++ nat_str (List.length kb) +++ ".")
               verbose, Ok false)
          else if negb (forallb (fun k => smem k kb) ka && forallb (fun k => smem k ka) kb) then
            (raise_warning "not identical: sofa_a and sofa_b do not have the ame attributes"
               verbose, Ok false)
          else compare_keys a b verbose ka true
      end
  end.
