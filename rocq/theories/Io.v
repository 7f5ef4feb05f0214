(** Reading and writing files.

    Models /repo/sofar/io.py. The NetCDF library is represented by the content
    of files and by the few operations sofar uses. Groups, compound types,
    scaling, packing and compression are not modelled. *)
From Verif Require Import Base PyStr PyNum NdArray Sofa Verify Utils.
From Coq Require Import ZArith.
Open Scope string_scope.
Open Scope list_scope.
Open Scope nat_scope.

(** ** Files *)

(** Data of a NetCDF variable in C order: numbers (kind f or i) with the fill
    value that marks missing data, characters, or anything else (strings of
    variable length).
    Written at /repo/sofar/io.py:330-333, read at :162 *)
Inductive ncdata :=
| DNum (k : dkind) (fill : option elt) (d : list elt)
| DChar (s : string)
| DOther.

(** [nv_attrs] holds the values as returned by [getattr(variable, name)] in the
    order of [ncattrs()].
    Created at /repo/sofar/io.py:327-329 *)
Record ncvar := NcVar {
  nv_dims : list string; nv_shape : list nat; nv_data : ncdata; nv_attrs : dict value }.

(** Content of a file: sizes of the dimensions and whether they are unlimited,
    global attributes and variables in the order of their creation.
    /repo/sofar/io.py:127, 295 *)
Record ncfile := NcFile {
  nf_dims : dict (nat * bool); nf_attrs : dict value; nf_vars : dict ncvar }.

(** /repo/sofar/io.py:295 *)
Definition empty_file : ncfile := NcFile [] [] [].

(** Files by name; [None]: no NetCDF file. [fs_writable]: files that can be
    created or replaced.
    /repo/sofar/io.py:116, 127, 295 *)
Record fs := Fs { fs_files : dict (option ncfile); fs_writable : string -> bool }.
(** /repo/sofar/io.py:295 *)
Definition fs_set (p : string) (f : ncfile) (s : fs) : fs :=
  Fs (dset p (Some f) (fs_files s)) (fs_writable s).

(** ** File names, [pathlib.Path(filename).with_suffix('.sofa')],
    /repo/sofar/io.py:115 and :266, on a POSIX system *)

(** the components of a path; empty components and "." are dropped,
    /repo/sofar/io.py:115, 266 *)
Definition path_parts (p : string) : list string :=
  filter (fun c => negb (String.eqb c "") && negb (String.eqb c ".")) (split "/" p).
(** one slash, or exactly two slashes, at the start are kept,
    /repo/sofar/io.py:115, 266 *)
Definition path_root (p : string) : string :=
  if startswith "//" p && negb (startswith "///" p) then "//"
  else if startswith "/" p then "/" else "".

(** name without suffix: a dot that is neither the first nor the last character
    starts the suffix,
    /repo/sofar/io.py:115, 266 *)
Definition stem (n : string) : string :=
  match before_last "." n with
  | Some b => if String.eqb b "" || String.eqb (after_last "." n) "" then n else b
  | None => n
  end.

(** /repo/sofar/io.py:115, 266 *)
Definition sofa_path (p : string) : res string :=
  match rev (path_parts p) with
  | [] => Err (Exn EValueError "has an empty name")
  | n :: r => Ok (path_root p +++ join "/" (rev r ++ [stem n +++ ".sofa"]))
  end.

(** ** Names in NetCDF files *)

(** members of netCDF4.Dataset and netCDF4.Variable: attributes with these names
    can not be accessed with getattr and setattr.
    /repo/sofar/io.py:148, 304 *)
Definition dataset_members : list string :=
  ["groups"; "dimensions"; "variables"; "cmptypes"; "vltypes"; "enumtypes";
   "data_model"; "file_format"; "disk_format"; "parent"; "path"; "name"; "keepweakref";
   "auto_complex"; "filepath"; "isopen"; "close"; "sync"; "set_fill_on"; "set_fill_off";
   "createDimension"; "renameDimension"; "createCompoundType"; "createVLType";
   "createEnumType"; "createVariable"; "renameVariable"; "createGroup"; "ncattrs";
   "setncattr"; "setncattr_string"; "setncatts"; "getncattr"; "delncattr";
   "renameAttribute"; "renameGroup"; "set_auto_chartostring"; "set_auto_maskandscale";
   "set_auto_mask"; "set_auto_scale"; "set_always_mask"; "set_ncstring_attrs";
   "get_variables_by_attributes"; "fromcdl"; "tocdl"; "has_blosc_filter";
   "has_zstd_filter"; "has_bzip2_filter"; "has_szip_filter"].
(** /repo/sofar/io.py:179, 338 *)
Definition variable_members : list string :=
  ["dimensions"; "dtype"; "ndim"; "shape"; "scale"; "mask"; "chartostring"; "always_mask";
   "least_significant_digit"; "significant_digits"; "size"; "name"; "datatype"; "auto_complex";
   "group"; "ncattrs"; "setncattr"; "setncattr_string"; "setncatts"; "getncattr";
   "delncattr"; "filters"; "quantization"; "endian"; "chunking"; "get_var_chunk_cache";
   "set_var_chunk_cache"; "renameAttribute"; "assignValue"; "getValue"; "get_fill_value";
   "set_auto_chartostring"; "use_nc_get_vars"; "set_auto_maskandscale"; "set_auto_scale";
   "set_auto_mask"; "set_always_mask"; "set_ncstring_attrs"; "set_collective"; "get_dims"].

(** attributes that change how the library reads a variable,
    /repo/sofar/io.py:162, 338 *)
Definition special_attrs : list string :=
  ["_FillValue"; "missing_value"; "scale_factor"; "add_offset"; "valid_min"; "valid_max";
   "valid_range"; "_Unsigned"].

(** names accepted by the library: at most 256 characters, a letter, digit,
    underscore or non ASCII character followed by printable characters, no
    blank at the end,
    /repo/sofar/io.py:299, 304, 327, 338 *)
Definition name_start (c : ascii) : bool :=
  is_lower_ascii c || is_upper_ascii c || is_digit c || Ascii.eqb c "_"
  || (128 <=? nat_of_ascii c).
(** /repo/sofar/io.py:299, 304, 327, 338 *)
Definition name_char (c : ascii) : bool :=
  (32 <=? nat_of_ascii c) && negb (nat_of_ascii c =? 127) && negb (Ascii.eqb c "/").
(** /repo/sofar/io.py:299, 304, 327, 338 *)
Definition name_valid (n : string) : bool :=
  match n with
  | EmptyString => false
  | String c _ => name_start c && forallb name_char (chars n)
                  && negb (endswith " " n) && (String.length n <=? 256)
  end.

(** Names with a slash are paths of groups, which are not modelled.
    /repo/sofar/io.py:299, 304, 327, 338 *)
Definition check_name (n : string) : res unit :=
  if has_char "/" n then Err (Exn ENotModelled n)
  else if name_valid n then Ok tt
  else Err (Exn ERuntimeError "NetCDF: Name contains illegal characters").

(** ** Writing *)

(** a sequence of operations on an open file,
    /repo/sofar/io.py:295-339 *)
Definition W := ncfile -> ncfile * res unit.
(** nothing more is written, /repo/sofar/io.py:295-339 *)
Definition wret : W := fun f => (f, Ok tt).
(** sequence of statements, /repo/sofar/io.py:295-339 *)
Definition wseq (a b : W) : W := fun f =>
  match a f with (g, Ok _) => b g | (g, Err e) => (g, Err e) end.
(** an expression that may raise, e.g. /repo/sofar/io.py:321-323 *)
Definition wlift {A} (r : res A) (k : A -> W) : W := fun f =>
  match r with Ok a => k a f | Err e => (f, Err e) end.
(** the loops /repo/sofar/io.py:298, 303, 307, 337 *)
Fixpoint wfor {A} (l : list A) (k : A -> W) : W :=
  match l with [] => wret | x :: t => wseq (k x) (wfor t k) end.

(** [file.createDimension(d, n)]: size 0 gives an unlimited dimension,
    /repo/sofar/io.py:299 *)
Definition create_dim (d : string) (n : nat) : W := fun f =>
  match check_name d with
  | Err e => (f, Err e)
  | Ok _ =>
      if dmem d (nf_dims f)
      then (f, Err (Exn ERuntimeError "NetCDF: String match to name in use"))
      else (NcFile (nf_dims f ++ [(d, (n, n =? 0))]) (nf_attrs f) (nf_vars f), Ok tt)
  end.

(** Text of an attribute after writing and reading: NULs are removed.
    /repo/sofar/io.py:304, 338 *)
Fixpoint remove_nul (s : string) : string :=
  match s with
  | EmptyString => EmptyString
  | String c t => if Ascii.eqb c Ascii.zero then remove_nul t else String c (remove_nul t)
  end.

(** [setattr(file, name, text)],
    /repo/sofar/io.py:304 *)
Definition check_attr (members : list string) (n : string) : res unit :=
  if smem n members || smem n special_attrs || endswith "__" n
  then Err (Exn ENotModelled n) else check_name n.
(** /repo/sofar/io.py:304 *)
Definition write_gattr (n text : string) : W := fun f =>
  match check_attr dataset_members n with
  | Err e => (f, Err e)
  | Ok _ => (NcFile (nf_dims f) (dset n (VStr false (remove_nul text)) (nf_attrs f)) (nf_vars f), Ok tt)
  end.
(** [setattr(variable, name, text)],
    /repo/sofar/io.py:338-339 *)
Definition write_vattr (var n text : string) : W := fun f =>
  match check_attr variable_members n with
  | Err e => (f, Err e)
  | Ok _ =>
      match dget var (nf_vars f) with
      | Some v => (NcFile (nf_dims f) (nf_attrs f)
           (dset var (NcVar (nv_dims v) (nv_shape v) (nv_data v)
                            (dset n (VStr false (remove_nul text)) (nv_attrs v))) (nf_vars f)), Ok tt)
      | None => (f, Err (Exn EKeyError var))
      end
  end.

(** data of a variable that has not been written,
    /repo/sofar/io.py:327 *)
Definition unwritten (string_type : bool) (n : nat) : ncdata :=
  if string_type then DChar (string_of_list_ascii (repeat Ascii.zero n))
  else DNum KF (Some (EFlt fill64)) (repeat (EFlt fill64) n).

(** [file.createVariable(name, dtype, dims)], dtype "S1" or "f8",
    /repo/sofar/io.py:327-329 *)
Definition create_var (name : string) (string_type : bool) (ds : list string) : W := fun f =>
  match check_name name with
  | Err e => (f, Err e)
  | Ok _ =>
      if dmem name (nf_vars f)
      then (f, Err (Exn ERuntimeError "NetCDF: String match to name in use"))
      else match rmap (fun d => dgetE d (nf_dims f)) ds with
           | Err e => (f, Err e)
           | Ok l => let s := map fst l in
                     (NcFile (nf_dims f) (nf_attrs f)
                        (nf_vars f ++ [(name, NcVar ds s (unwritten string_type (prod s)) [])]), Ok tt)
           end
  end.

(** shape that is written by [variable[:] = data]: the sizes of the dimensions,
    for unlimited dimensions the extent of the data,
    /repo/sofar/io.py:331, 333 *)
Fixpoint target_shape (l : list (nat * bool)) (s : list nat) : res (list nat) :=
  match l with
  | [] => Ok []
  | (n, unlimited) :: t =>
      let? r := target_shape t (tl s) in
      if unlimited then match s with
                        | m :: _ => Ok (m :: r)
                        | [] => Err (Exn EIndexError "shape mismatch")
                        end
      else Ok (n :: r)
  end.

(** the library reshapes the data if the number of elements fits and broadcasts
    otherwise. Broadcasting is not modelled.
    /repo/sofar/io.py:331, 333 *)
Definition fit_shape (target s : list nat) : res unit :=
  if shape_eqb target s then Ok tt
  else if (List.length s =? 1) && (List.length target =? 1)
  then Err (Exn EIndexError "size of data array does not conform to slice")
  else if prod s =? prod target then Ok tt
  else if List.length target <? List.length s
  then Err (Exn EValueError "input operand has more dimensions than allowed")
  else Err (Exn ENotModelled "broadcast").

(** unlimited dimensions grow,
    /repo/sofar/io.py:331, 333 *)
Definition grow_dims (ds : list string) (s : list nat) (d : dict (nat * bool)) : dict (nat * bool) :=
  fold_left (fun d dn => match dget (fst dn) d with
                         | Some (m, true) => dset (fst dn) (Nat.max m (snd dn), true) d
                         | _ => d
                         end) (combine ds s) d.

(** [variable[:] = data] for data of shape [s],
    /repo/sofar/io.py:331, 333 *)
Definition assign_var (name : string) (s : list nat) (data : ncdata) : W := fun f =>
  match dget name (nf_vars f) with
  | None => (f, Err (Exn EKeyError name))
  | Some v =>
      match (let? l := rmap (fun d => dgetE d (nf_dims f)) (nv_dims v) in
             let? t := target_shape l s in
             let? _ := fit_shape t s in Ok t) with
      | Err e => (f, Err e)
      | Ok t => (NcFile (grow_dims (nv_dims v) t (nf_dims f)) (nf_attrs f)
                   (dset name (NcVar (nv_dims v) t data (nv_attrs v)) (nf_vars f)), Ok tt)
      end
  end.

(** numbers as float64,
    /repo/sofar/io.py:327, 331 *)
Definition to_f8 (e : elt) : res elt :=
  match e with
  | EInt z => Ok (EFlt (f_of_Z z))
  | EFlt f => Ok (EFlt f)
  | EBool b => Ok (EFlt (f_of_Z (if b then 1 else 0)))
  | _ => Err (Exn ENotModelled "conversion to double")
  end.

(** elements of masked arrays, netCDF4 fills missing data when
    /repo/sofar/io.py:331 assigns them *)
Definition fill_f8 (e : elt) : res elt :=
  match e with EObj => Ok (EFlt fill64) | _ => to_f8 e end.

(** exactly [n] characters, padded with NULs,
    /repo/sofar/io.py:379 *)
Definition fixed_width (n : nat) (s : string) : string :=
  stake n (s +++ string_of_list_ascii (repeat Ascii.zero n)).

(** The value in the file, its shape and type (true: "S1"),
    /repo/sofar/io.py:342-385 [_format_value_for_netcdf] and
    stringtochar, :333. numpy chooses the number of characters if [S] is 0.
    The library stores the default fill value for masked elements. Simplification:
    only masked arrays of floats are modelled. *)
Definition format_for_netcdf (v : value) (key dtype dims : string) (S_ : nat)
  : res (list nat * ncdata * bool) :=
  if String.eqb dtype "double" then
    let? a := atleast_nd v (String.length dims) in
    if a_mask a && negb (dkind_eqb (a_kind a) KF) then Err (Exn ENotModelled "masked array")
    else let? d := rmap (if a_mask a then fill_f8 else to_f8) (a_data a) in
         Ok (a_shape a, DNum KF (Some (EFlt fill64)) d, false)
  else if String.eqb dtype "string" then
    let? a := np_array v in
    let? l := rmap to_bytes (a_data a) in
    let n := if S_ =? 0 then Nat.max 1 (max_list (map String.length l)) else S_ in
    Ok (sh_atleast_nd (a_shape a) (String.length dims) ++ [n],
        DChar (sconcat (fixed_width n) l), true)
  else Err (Exn EValueError ("Unknown type " +++ dtype +++ " for " +++ key)).

(** name of a variable in the file, /repo/sofar/io.py:328 *)
Definition netcdf_name (key : string) : string := replace "Data_" "Data." key.

(** one variable with its attributes, /repo/sofar/io.py:307-339 *)
Definition write_entry (E : env) (o : sofa) (key : string) : W :=
  wlift (dgetE key (conv o)) (fun e =>
  if String.eqb (e_type e) "attribute" then wret
  else
    wlift (getattr o key) (fun v =>
    wlift (match dims o with Some d => dgetE key d | None => Err (Exn EAttributeError "_dimensions") end) (fun d =>
    wlift (match api o with Some a => dgetE "S" a | None => Err (Exn EAttributeError "_api") end) (fun s =>
    wlift (format_for_netcdf v key (e_type e) d s) (fun x =>
    let '(shape, data, is_string) := x in
    wseq (create_var (netcdf_name key) is_string (map str1 (chars d)))
    (wseq (assign_var (netcdf_name key) shape data)
    (wfor (filter (startswith (key +++ "_")) (dkeys (pub o))) (fun k =>
       wlift (getattr o k) (fun w =>
       write_vattr (netcdf_name key) (sdrop (String.length key + 1) k) (py_str E w)))))))))).

(** the content of the file, /repo/sofar/io.py:294-339 *)
Definition write_content (E : env) (o : sofa) : W :=
  wseq (wfor (match api o with Some a => a | None => [] end) (fun dn => create_dim (fst dn) (snd dn)))
  (wseq (wfor (filter (startswith "GLOBAL_") (dkeys (pub o))) (fun k =>
           wlift (getattr o k) (fun w => write_gattr (sdrop 7 k) (py_str E w))))
        (wfor (dkeys (pub o)) (write_entry E o))).

(** warning about an old version, /repo/sofar/io.py:268-282 *)
Definition warn_version (E : env) : M unit :=
  do o <- get;
  do c <- lift (getattr o "GLOBAL_SOFAConventions");
  match c with
  | VStr _ c =>
      if String.eqb c "invalid-value" then ret tt
      else
        let '(ev, r) := sofa_init E c false "latest" VAuto in
        do_ mfor ev emit;
        do l <- lift r;
        do latest <- lift (getattr l "GLOBAL_SOFAConventionsVersion");
        do current <- lift (getattr o "GLOBAL_SOFAConventionsVersion");
        match current, latest with
        | VStr _ current, VStr _ latest =>
            do old <- lift (version_ltb current latest);
            when old (emit (EvWarn
              ("Writing SOFA object with outdated Convention version " +++ current
               +++ ". It is recommend to upgrade  data with Sofa.upgrade_convention() before writing to disk if possible.")))
        | _, _ => raise (Exn ETypeError "expected string or bytes-like object")
        end
  | _ => raise (Exn ETypeError "convention")
  end.

(** everything before the file is opened, /repo/sofar/io.py:265-289 *)
Definition prepare_write (E : env) (name : string) : M string :=
  do p <- lift (sofa_path name);
  do_ warn_version E;
  do_ verify E HRaise VWrite;
  ret p.

(** /repo/sofar/io.py:224-339 [write_sofa]. The argument compression has no
    effect on the content. The file is created or emptied when it is opened and
    closed if an exception is raised. *)
Definition write_sofa (E : env) (name : string) (o : sofa) (s : fs)
  : fs * (sofa * list event * res unit) :=
  match prepare_write E name o with
  | (o', ev, Err e) => (s, (o', ev, Err e))
  | (o', ev, Ok p) =>
      if fs_writable s p then
        let '(f, r) := write_content E o' empty_file in
        (fs_set p f s, (o', ev, r))
      else (s, (o', ev, Err (Exn EOSError p)))
  end.

(** ** Reading *)

(** consecutive pieces of [n] characters,
    /repo/sofar/io.py:415 *)
Fixpoint pieces (count n : nat) (s : string) : list string :=
  match count with
  | 0 => []
  | S c => stake n s :: pieces c n (sdrop n s)
  end.

(** netCDF4.chartostring: the last dimension becomes the strings,
    /repo/sofar/io.py:415 *)
Definition chartostring (shape : list nat) (s : string) : res arr :=
  match rev shape with
  | [] => Err (Exn EIndexError "tuple index out of range")
  | n :: r =>
      if n =? 0 then Err (Exn EValueError "range() arg 3 must not be zero")
      else if forallb is_ascii (chars s)
      then Ok (Arr KU (rev r) (map (fun p => EStr (strip_nul p)) (pieces (prod (rev r)) n s)) false)
      else Err (Exn EUnicodeError s)
  end.

(** element that marks missing data,
    /repo/sofar/io.py:406 *)
Definition elt_eqb (a b : elt) : bool :=
  match a, b with
  | EInt x, EInt y => Z.eqb x y
  | EFlt x, EFlt y => f_eqb x y
  | _, _ => false
  end.

(** the element as returned by [file[var][:]]: missing data are masked,
    /repo/sofar/io.py:162, 406 *)
Definition read_elt (fill : option elt) (e : elt) : elt :=
  match fill with
  | Some f => if elt_eqb f e then EObj else e
  | None => e
  end.

(** misses a comma, /repo/sofar/io.py:423 *)
Definition data_keys : list string :=
  ["Data_IR"; "Data_Real"; "Data_Imag"; "Data_SOSData_Delay"].

(** [value[0]] of an array with a single element,
    /repo/sofar/io.py:425 *)
Definition first_item (a : arr) : res value :=
  match a_shape a, a_data a with
  | [_], [e] => if a_mask a then Ok (VArr (reshape a []))
                else Ok (scalar_value e)
  | _ :: rest, _ => Ok (VArr (reshape a rest))
  | _, _ => Err (Exn EIndexError "too many indices for array")
  end.

(** [file[var][:]] and /repo/sofar/io.py:388-427 [_format_value_from_netcdf].
    Simplifications: the shape of a variable is the shape written last; the
    attribute _Encoding is only modelled for ASCII characters. *)
Definition format_from_netcdf (key : string) (v : ncvar) : list event * res value :=
  let out := fun (a : arr) =>
    if (a_size a =? 1) && negb (smem key data_keys) then first_item a else Ok (VArr a) in
  match nv_data v with
  | DNum k fill d =>
      let masked := match fill with Some e => existsb (elt_eqb e) d | None => false end in
      (if masked then [EvWarn ("Entry " +++ key +++ " contains missing data")] else [],
       out (Arr k (nv_shape v) (map (read_elt fill) d) masked))
  | DChar s =>
      ([], let? a := chartostring (nv_shape v) s in
           out (reshape a (sh_atleast_1d (a_shape a))))
  | DOther => ([], Err (Exn ETypeError (key +++ ": value.dtype must be float, S or, U")))
  end.

(** [getattr(file, name)] and [getattr(variable, name)] for names of
    attributes,
    /repo/sofar/io.py:148, 179 *)
Definition read_attr (members : list string) (n : string) (v : value) : res value :=
  if smem n members then Err (Exn ENotModelled n) else Ok v.

(** names found in the file, and those not contained in the convention,
    /repo/sofar/io.py:122-124 *)
Definition names := (list string * list string)%type.

(** assign an entry of the file,
    /repo/sofar/io.py:151-157, :165-174 and :182-189 *)
Definition read_entry (name : string) (v : value) (d : option string) (dtype : string)
    (n : names) : M names :=
  do o <- get;
  if hasattr o name then
    do_ set_attr name v;
    ret (fst n ++ [name], snd n)
  else
    do_ add_custom_api_entry name v d dtype;
    do_ set_protected false;
    ret (fst n ++ [name], snd n ++ [name]).

(** the loops /repo/sofar/io.py:146, 160, 177 *)
Fixpoint mfold {A B} (f : A -> B -> M B) (l : list A) (b : B) : M B :=
  match l with
  | [] => ret b
  | x :: t => do c <- f x b; mfold f t c
  end.

(** name of a variable in Sofa objects, /repo/sofar/io.py:163 *)
Definition sofa_name (var : string) : string := replace_char "." "_" var.

(** global attributes, /repo/sofar/io.py:145-157 *)
Definition read_gattr (a : string * value) (n : names) : M names :=
  do v <- lift (read_attr dataset_members (fst a) (snd a));
  read_entry ("GLOBAL_" +++ fst a) v None "attribute" n.

(** one variable with its attributes, /repo/sofar/io.py:159-189 *)
Definition read_var (a : string * ncvar) (n : names) : M names :=
  let '(var, v) := a in
  if existsb (fun k => smem k special_attrs) (dkeys (nv_attrs v))
  then raise (Exn ENotModelled var)
  else
    let '(ev, r) := format_from_netcdf var v in
    do_ mfor ev emit;
    do val <- lift r;
    do n <- read_entry (sofa_name var) val (Some (join "" (nv_dims v)))
              (match nv_data v with DChar _ => "string" | _ => "double" end) n;
    mfold (fun b n => do w <- lift (read_attr variable_members (fst b) (snd b));
                      read_entry (sofa_name var +++ "_" +++ fst b) w None "attribute" n)
          (filter (fun b => negb (String.eqb (fst b) "_Encoding")) (nv_attrs v)) n.

(** the content of the file, /repo/sofar/io.py:142-199 *)
Definition read_content (f : ncfile) : M (list string) :=
  do_ set_protected false;
  do n <- mfold read_gattr (nf_attrs f) ([], []);
  do n <- mfold read_var (nf_vars f) n;
  do o <- get;
  do_ mfor (filter (fun k => negb (smem k (fst n))) (dkeys (pub o))) del_attr;
  do_ set_protected true;
  ret (snd n).

(** /repo/sofar/io.py:216-219 *)
Definition msg_not_verified : string :=
  "The SOFA object could not be verified, maybe due to erroneous data. Call sofa=sofar.read_sofa(filename, verify=False) and then sofa.verify() to get more information".

(** [try: sofa.verify(mode="read") except: raise ValueError], /repo/sofar/io.py:211-219 *)
Definition verify_read (E : env) : M unit := fun o =>
  match verify E HRaise VRead o with
  | (o', ev, Ok _) => (o', ev, Ok tt)
  | (o', ev, Err _) => (o', ev, Err (Exn EValueError msg_not_verified))
  end.

(** /repo/sofar/io.py:201-205 *)
Definition custom_notice (custom : list string) : string :=
  "SOFA file contained custom entries" +++ nl +++ "----------------------------------" +++ nl
  +++ join ", " custom.

(** [Dataset(filename, "r")] after the check of the file name, /repo/sofar/io.py:114-127 *)
Definition open_file (s : fs) (name : string) : res ncfile :=
  let? p := sofa_path name in
  match dget p (fs_files s) with
  | None => Err (Exn EValueError (p +++ " does not exist"))
  | Some None => Err (Exn EOSError p)
  | Some (Some f) => Ok f
  end.

(** convention or version, /repo/sofar/io.py:131-132 *)
Definition file_text (f : ncfile) (n : string) : res string :=
  match dget n (nf_attrs f) with
  | Some (VStr _ s) => Ok s
  | Some _ => Err (Exn ENotModelled n)
  | None => Err (Exn EAttributeError ("NetCDF: Attribute not found: " +++ n))
  end.

(** the object is only returned if nothing is raised, /repo/sofar/io.py:221 *)
Definition finished (r : sofa * list event * res unit) : list event * res sofa :=
  match r with
  | (o, ev, Ok _) => (ev, Ok o)
  | (_, ev, Err e) => (ev, Err e)
  end.
(** output before the following statements, /repo/sofar/io.py:137-221 *)
Definition prepend {A} (ev : list event) (r : list event * res A) : list event * res A :=
  (ev ++ fst r, snd r).

(** /repo/sofar/io.py:112-221 [_read_netcdf] with mode "sofa" *)
Definition read_sofa (E : env) (s : fs) (name : string) (vo : vopt) (verbose : bool)
  : list event * res sofa :=
  match (let? f := open_file s name in
         let? c := file_text f "SOFAConventions" in
         let? v := file_text f "SOFAConventionsVersion" in
         let? _ := verify_convention_and_version E v c in
         Ok (f, c, v)) with
  | Err e => ([], Err e)
  | Ok (f, c, v) =>
      match sofa_init E c false v vo with
      | (ev, Err e) => (ev, Err e)
      | (ev, Ok o) =>
          prepend ev (finished (
            (do custom <- read_content f;
             do_ when (negb (match custom with [] => true | _ => false end) && verbose)
                   (emit (EvPrint (custom_notice custom)));
             do ver <- match vo with
                       | VAuto => lift (version_geb v "1.0")
                       | VYes => ret true
                       | VNo => ret false
                       end;
             if ver then verify_read E else ret tt) o))
      end
  end.

(** mode "netcdf", /repo/sofar/io.py:63-109 *)
Definition read_sofa_as_netcdf (s : fs) (name : string) : list event * res sofa :=
  match open_file s name with
  | Err e => ([], Err e)
  | Ok f => finished ((do_ read_content f; ret tt) empty_sofa)
  end.
