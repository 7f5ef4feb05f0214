(** Access to files without reading them as a whole.

    Models /repo/sofar/sofastream.py. An opened stream is represented by the
    content of its file; [self._data] only repeats the last result. *)
From Verif Require Import Base PyStr PyNum NdArray Sofa Verify Utils Io.
From Coq Require Import ZArith.
Open Scope string_scope.
Open Scope list_scope.
Open Scope nat_scope.

(** the file that the operating system finds; a name that ends with a slash or a single
    dot can only be a directory. Simplification: links and ".." are not resolved.
    /repo/sofar/sofastream.py:76 *)
Definition os_path (p : string) : option string :=
  match rev (split "/" p) with
  | c :: _ => if String.eqb c "" || String.eqb c "." then None
              else Some (path_root p +++ join "/" (path_parts p))
  | [] => None
  end.

(** /repo/sofar/sofastream.py:71-77 [__enter__]: the file name is used as it is, no suffix
    is added *)
Definition stream_open (s : fs) (filename : string) : res ncfile :=
  match os_path filename with
  | None => Err (Exn EOSError filename)
  | Some p =>
      match dget p (fs_files s) with
      | None => Err (Exn EOSError filename)
      | Some None => Err (Exn EOSError filename)
      | Some (Some f) => Ok f
      end
  end.

(** what is returned: a variable of the file or the value of an attribute,
    /repo/sofar/sofastream.py:107-114 *)
Inductive stream_item := IVar (x : ncvar) | IAttr (v : value).

(** attributes of the class and of its objects, for which __getattr__ is not
    called; members of [object] are private and not listed,
    /repo/sofar/sofastream.py:67-301 *)
Definition stream_members : list string :=
  ["list_dimensions"; "get_dimension"; "inspect"; "_filename"; "_file"; "_data"].

(** [getattr(variable, name)],
    /repo/sofar/sofastream.py:109 *)
Definition stream_vattr (x : ncvar) (n : string) : res stream_item :=
  if smem n variable_members then Err (Exn ENotModelled n)
  else match dget n (nv_attrs x) with
       | Some v => Ok (IAttr v)
       | None => Err (Exn EAttributeError ("NetCDF: Attribute not found: " +++ n))
       end.

(** /repo/sofar/sofastream.py:86-119 [__getattr__] *)
Definition stream_get (f : ncfile) (name : string) : res stream_item :=
  if smem name stream_members then Err (Exn ENotModelled name)
  else
    let n := replace "Data_" "Data." (replace "GLOBAL_" "" name) in
    let? na := if has_char "_" n
               then match split "_" n with
                    | [v; a] => Ok (v, Some a)
                    | _ => Err (Exn EValueError "too many values to unpack (expected 2)")
                    end
               else Ok (n, None) in
    match dget (fst na) (nf_vars f) with
    | Some x => match snd na with
                | Some a => stream_vattr x a
                | None => Ok (IVar x)
                end
    | None => match dget (fst na) (nf_attrs f) with
              | Some v => Ok (IAttr v)
              | None => Err (Exn EAttributeError (name +++ " is not contained in SOFA-file"))
              end
    end.

(** /repo/sofar/sofastream.py:195-223 [get_dimension] *)
Definition stream_get_dimension (f : ncfile) (d : string) : res nat :=
  match dget d (nf_dims f) with
  | Some (n, _) => Ok n
  | None => Err (Exn EValueError (d +++ " is not a valid dimension. "
                   +++ "See Sofa.list_dimensions for a list of valid dimensions."))
  end.

(** [getncattr(name)] of the file and of a variable,
    /repo/sofar/sofastream.py:155, 166, 245 *)
Definition getncattr (d : dict value) (n : string) : res value :=
  match dget n d with
  | Some v => Ok v
  | None => Err (Exn EAttributeError ("NetCDF: Attribute not found: " +++ n))
  end.

(** /repo/sofar/sofastream.py:121-193, body of [list_dimensions]: the printed text *)
Definition stream_dimensions_text (f : ncfile) : res string :=
  let? dt := getncattr (nf_attrs f) "DataType" in
  let? dt := match dt with VStr _ s => Ok s | _ => Err (Exn EAttributeError "startswith") end in
  let n_verbose := if startswith "FIR" dt then Some "samples"
                   else if startswith "TF" dt then Some "frequencies"
                   else if startswith "SOS" dt then Some "SOS coefficients"
                   else None in
  let harmonic := fun var =>
    let? x := dgetE var (nf_vars f) in
    let? t := getncattr (nv_attrs x) "Type" in
    match t with
    | VStr _ s => Ok (contains "harmonic" s)
    | _ => Err (Exn ENotModelled "'harmonic' in value")
    end in
  let? r := harmonic "ReceiverPosition" in
  let? e := harmonic "EmitterPosition" in
  let? n_verbose := match n_verbose with
                    | Some n => Ok n
                    | None => Err (Exn EUnboundLocalError "N_verbose")
                    end in
  let names := [("M", "measurements"); ("N", n_verbose);
    ("R", if r then "receiver spherical harmonics coefficients" else "receiver");
    ("E", if e then "emitter spherical harmonics coefficients" else "emitter");
    ("S", "maximum string length"); ("C", "coordinate dimensions, fixed");
    ("I", "single dimension, fixed")] in
  Ok (sconcat (fun kn => fst kn +++ " = " +++ nat_str (fst (snd kn)) +++ " "
        +++ match dget (fst kn) names with Some d => d | None => "custom dimension" end +++ nl)
      (nf_dims f)).

(** /repo/sofar/sofastream.py:86-193 [list_dimensions] is a property: if its body
    raises AttributeError, Python calls [__getattr__("list_dimensions")], which
    looks for a variable or an attribute called "list". *)
Definition stream_list_dimensions (f : ncfile) : res string :=
  match stream_dimensions_text f with
  | Err (Exn EAttributeError _) =>
      if smem "list" (dkeys (nf_vars f)) || smem "list" (dkeys (nf_attrs f))
      then Err (Exn ENotModelled "list")
      else Err (Exn EAttributeError "list_dimensions is not contained in SOFA-file")
  | r => r
  end.

(** [variable[:]]; characters are not joined to texts. Simplification: the
    attribute _Encoding is not taken into account.
    /repo/sofar/sofastream.py:260, 274, 288 *)
Definition raw_array (x : ncvar) : res arr :=
  match nv_data x with
  | DNum k fill d =>
      Ok (Arr k (nv_shape x) (map (read_elt fill) d) (match fill with Some e => existsb (elt_eqb e) d | None => false end))
  | DChar s => Ok (Arr KS (nv_shape x) (map (fun c => EByt (strip_nul (str1 c))) (chars s)) false)
  | DOther => Err (Exn ENotModelled "strings of variable length")
  end.

(** text of a variable and its attributes, /repo/sofar/sofastream.py:257-293 *)
Definition stream_inspect_var (E : env) (nx : string * ncvar) : res string :=
  let '(n, x) := nx in
  let key := replace_char "." "_" n in
  let? a := raw_array x in
  let? txt :=
    if prod (nv_shape x) =? 1 then
      let? v := match a_shape a, a_data a with
                | [_], [e] => if a_mask a then Ok (VArr (reshape a [])) else Ok (scalar_value e)
                | _ :: rest, _ => Ok (VArr (reshape a rest))
                | _, _ => Err (Exn EIndexError "too many indices for array")
                end in
      Ok (py_str E v +++ nl)
    else
      Ok (drop_end 2 ("(" +++ sconcat (fun p => snd p +++ "=" +++ nat_str (fst p) +++ ", ")
                        (combine (nv_shape x) (nv_dims x))) +++ ")" +++ nl
          +++ (if prod (nv_shape x) <? 7
               then "  " +++ replace nl (nl +++ "  ") (str_of E (VArr (reshape a (sh_squeeze (a_shape a))))) +++ nl
               else "")) in
  let? atts := rconcat (fun av =>
      if smem (fst av) variable_members then Err (Exn ENotModelled (fst av)) else
      match snd av with
      | VStr _ s => Ok (key +++ "_" +++ fst av +++ " : " +++ s +++ nl)
      | _ => Err (Exn ETypeError "can only concatenate str")
      end) (nv_attrs x) in
  Ok (key +++ " : " +++ txt +++ atts).

(** /repo/sofar/sofastream.py:225-301 [inspect] without output file: the printed
    text *)
Definition stream_inspect (E : env) (f : ncfile) : res string :=
  let? c := getncattr (nf_attrs f) "SOFAConventions" in
  let? v := getncattr (nf_attrs f) "SOFAConventionsVersion" in
  let? s := getncattr (nf_attrs f) "Version" in
  let hd := py_str E c +++ " " +++ py_str E v +++ " (SOFA version " +++ py_str E s +++ ")" +++ nl in
  let atts := sconcat (fun av => "GLOBAL_" +++ fst av +++ " : " +++ py_str E (snd av) +++ nl) (nf_attrs f) in
  let? vars := rconcat (stream_inspect_var E) (nf_vars f) in
  Ok (hd +++ sconcat (fun _ => "-") (chars hd) +++ nl +++ atts +++ vars).
