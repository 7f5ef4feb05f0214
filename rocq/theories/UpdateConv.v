(** Model of /repo/sofar/update_conventions.py: downloading conventions
    ([update_conventions]), compiling them ([_compile_conventions]) and
    reading a csv file ([_convention_csv2dict]).

    Simplifications: the pages and files of the server are a record [server]
    that does not change during the run (parsing the HTML pages with
    BeautifulSoup, the network and its failures are not modelled). Creating the
    two directories if they are missing has no effect in the model. The
    temporary directory is a dictionary. The text written by [json.dump] is the
    dictionary itself. [glob] lists the files in the order of the dictionary.
    The windows-1252 decoding is the identity on bytes (bytes 128 to 159 are
    other code points or raise UnicodeDecodeError, and byte 160 is not white
    space in the model). Python's [float] is a parameter. *)
From Verif Require Import Base PyStr PyNum NdArray Sofa.
From Coq Require Import ZArith NArith.
Open Scope string_scope.
Open Scope list_scope.

(** /repo/sofar/update_conventions.py:111, 262 *)
Definition TAB : ascii := "009".
(** /repo/sofar/update_conventions.py:111 *)
Definition NL : ascii := "010".
(** /repo/sofar/update_conventions.py:111 *)
Definition CR : ascii := "013".

(** ** reading a csv file *)

(** a cell of the csv file; [None] is Python's [None],
    /repo/sofar/update_conventions.py:264-308 *)
Definition cell := option value.
(** the dictionary written to the json file,
    /repo/sofar/update_conventions.py:257, 336-338 *)
Definition jconv := dict (dict cell).

(** [float(s)] ([None]: ValueError) and [str(x)] for a float,
    /repo/sofar/update_conventions.py:275, 290, 302, 333 *)
Record flt_env := FltEnv {
  float_of : string -> option f64; float_repr : f64 -> string }.

(** [int(s)] on the digits of [s]: digits with single underscores between
    them; [prev] tells if the previous character was a digit,
    /repo/sofar/update_conventions.py:275, 290, 303 *)
Fixpoint int_digits (s : string) (acc : N) (prev : bool) : option N :=
  match s with
  | EmptyString => if prev then Some acc else None
  | String c t =>
      if is_digit c then int_digits t (acc * 10 + digit_val c)%N true
      else if Ascii.eqb c "_" && prev then int_digits t acc false
      else None
  end.
(** [int(s)]. Simplification: only ASCII digits,
    /repo/sofar/update_conventions.py:275, 290, 303 *)
Definition int_of (s : string) : option Z :=
  match strip s with
  | String c t =>
      if Ascii.eqb c "-"
      then option_map (fun n => Z.opp (Z.of_N n)) (int_digits t 0 false)
      else if Ascii.eqb c "+" then option_map Z.of_N (int_digits t 0 false)
      else option_map Z.of_N (int_digits (String c t) 0 false)
  | EmptyString => None
  end.

(** [float(s) if '.' in s else int(s)], /repo/sofar/update_conventions.py:275, 290, 302 *)
Definition number_of (F : flt_env) (s : string) : option value :=
  if has_char "." s
  then option_map (fun x => VScal (EFlt x)) (float_of F s)
  else option_map (fun z => VScal (EInt z)) (int_of s).

(** one row of numbers, /repo/sofar/update_conventions.py:285-290 and 298-303 (the second
    [replace] never finds a blank) *)
Definition row_of (F : flt_env) (s : string) : option value :=
  option_map VList
    (omap (number_of F)
       (split "," (replace " " "" (replace " " "," (strip s))))).

(** /repo/sofar/update_conventions.py:266-308; outer [None]: an exception *)
Definition parse_cell (F : flt_env) (s : string) : option cell :=
  if String.eqb (replace " " "" s) "" then Some None
  else
    match strip s with
    | EmptyString => None                       (* cell[0]: IndexError *)
    | String c t =>
        if negb (Ascii.eqb c "[") then
          match number_of F (String c t) with
          | Some v => Some (Some v)
          | None => Some (Some (VStr false (String c t)))
          end
        else
          let inner := drop_end 1 t in          (* cell[1:-1] *)
          if negb (has_char ";" inner)
          then option_map Some (row_of F inner)
          else option_map (fun l => Some (VList l))
                 (omap (row_of F) (split ";" inner))
    end.

(** /repo/sofar/update_conventions.py:262-308 *)
Definition parse_line (F : flt_env) (line : string) : option (list cell) :=
  omap (parse_cell F) (split (str1 TAB) (strip line)).

(** /repo/sofar/update_conventions.py:325, 328 *)
Definition zlist (l : list Z) : value :=
  VList (map (fun z => VScal (EInt z)) l).

(** unusual default values, /repo/sofar/update_conventions.py:318-330 *)
Definition fix_default (c : cell) : cell :=
  match c with
  | None => Some (VStr false "")
  | Some (VStr _ s) =>
      if String.eqb s "permute([0 0 0 1 0 0; 0 0 0 1 0 0], [3 1 2]);"
      then Some (VList [VList [zlist [0; 0; 0; 1; 0; 0]%Z;
                               zlist [0; 0; 0; 1; 0; 0]%Z]])
      else if String.eqb s "permute([0 0 0 1 0 0], [3 1 2]);"
      then Some (VList [VList [zlist [0; 0; 0; 1; 0; 0]%Z]])
      else if String.eqb s "{''}" then Some (VList [VStr false ""])
      else c
  | _ => c
  end.

(** [str(float(line[1]))] for a default that is not a string,
    /repo/sofar/update_conventions.py:332-333 *)
Definition version_default (F : flt_env) (c : cell) : option cell :=
  match c with
  | Some (VStr _ _) => Some c
  | Some (VScal (EInt z)) =>
      let x := f_of_Z z in
      if f_is_finite x then Some (Some (VStr false (float_repr F x)))
      else None                                 (* OverflowError *)
  | Some (VScal (EFlt x)) => Some (Some (VStr false (float_repr F x)))
  | _ => None                                   (* TypeError *)
  end.

(** [for ff, field in enumerate(fields):
      convention[line[0]][field.lower()] = line[ff + 1]],
    /repo/sofar/update_conventions.py:337-338 *)
Fixpoint fill_fields (fields cells : list cell) (acc : dict cell)
  : option (dict cell) :=
  match fields, cells with
  | [], _ => Some acc
  | Some (VStr _ f) :: fs, c :: cs => fill_fields fs cs (dset (lower f) c acc)
  | _, _ => None
  end.

(** one line after the first: name and fields, /repo/sofar/update_conventions.py:315-338 *)
Definition parse_row (F : flt_env) (fields cells : list cell)
  : option (string * dict cell) :=
  let cells := if (List.length cells =? 5)%nat
               then cells ++ [Some (VStr false "")] else cells in
  match cells with
  | Some (VStr _ name) :: def :: rest =>
      let def := fix_default def in
      match (if contains "Version" name then version_default F def
             else Some def) with
      | Some def =>
          option_map (pair name) (fill_fields fields (def :: rest) [])
      | None => None
      end
  | _ => None
  end.

(** [fid.readlines()] with universal newlines (without the line ends, which
    [strip] removes), /repo/sofar/update_conventions.py:253-254 *)
Definition lines_of (s : string) : list string :=
  let l := split (str1 NL)
             (replace_char CR NL (replace (str1 CR +++ str1 NL) (str1 NL) s)) in
  match rev l with
  | "" :: t => rev t
  | _ => l
  end.

(** all exceptions become a ValueError, /repo/sofar/update_conventions.py:340-342 *)
Definition parse_error : exn := Exn EValueError "Failed to parse line".

(** /repo/sofar/update_conventions.py:336-338 for all lines after the first *)
Fixpoint add_rows (F : flt_env) (fields : list cell) (lines : list string)
  (conv : jconv) : res jconv :=
  match lines with
  | [] => Ok conv
  | l :: t =>
      match parse_line F l with
      | None => Err parse_error
      | Some cells =>
          match parse_row F fields cells with
          | None => Err parse_error
          | Some (name, e) => add_rows F fields t (dset name e conv)
          end
      end
  end.

(** [convention[key] = convention.pop(key)],
    /repo/sofar/update_conventions.py:349, 353 *)
Definition to_end {A} (k : string) (d : dict A) : dict A :=
  match dget k d with
  | Some v => dset k v (ddel k d)
  | None => d
  end.

(** [for key in keys: if cond(key): ...], /repo/sofar/update_conventions.py:346-353 *)
Definition move_keys {A} (cond : string -> bool) (keys : list string)
  (d : dict A) : dict A :=
  fold_left (fun d k => if cond k then to_end k d else d) keys d.

(** /repo/sofar/update_conventions.py:344-353 *)
Definition reorder {A} (d : dict A) : dict A :=
  let keys := dkeys d in
  move_keys (startswith "Data") keys
    (move_keys (fun k => negb (contains "GLOBAL" k)) keys d).

(** [_convention_csv2dict], /repo/sofar/update_conventions.py:224-355 *)
Definition csv2dict (F : flt_env) (text : string) : res jconv :=
  match lines_of text with
  | [] => Ok []
  | l :: t =>
      match parse_line F l with
      | None => Err parse_error
      | Some cells =>
          let? conv := add_rows F (tl cells) t [] in
          Ok (reorder conv)
      end
  end.

(** ** the directory of conventions *)

(** csv and json files below [conventions_path]; the file names are relative,
    those of deprecated conventions start with "deprecated/",
    /repo/sofar/update_conventions.py:74-81 *)
Record cdir := CDir { csvs : dict string; jsons : dict jconv }.

(** [f"{csv_file[:-3]}json"],
    /repo/sofar/update_conventions.py:181, 220 *)
Definition json_name (c : string) : string := drop_end 3 c +++ "json".

(** [glob.glob("*.csv") + glob.glob("deprecated/*.csv")] (hidden files are not
    listed), /repo/sofar/update_conventions.py:213-214 *)
Definition top_csv (p : string) : bool :=
  endswith ".csv" p && negb (has_char "/" p) && negb (startswith "." p).
(** /repo/sofar/update_conventions.py:214 *)
Definition dep_csv (p : string) : bool :=
  startswith "deprecated/" p && top_csv (sdrop 11 p).
(** /repo/sofar/update_conventions.py:212-214 *)
Definition csv_files (d : cdir) : list string :=
  filter top_csv (dkeys (csvs d)) ++ filter dep_csv (dkeys (csvs d)).

(** the loop of [_compile_conventions], /repo/sofar/update_conventions.py:216-221 *)
Fixpoint compile_files (F : flt_env) (files : list string) (d : cdir)
  : cdir * res unit :=
  match files with
  | [] => (d, Ok tt)
  | p :: t =>
      match dget p (csvs d) with
      | None => (d, Err (Exn EOSError p))
      | Some text =>
          match csv2dict F text with
          | Err e => (d, Err e)
          | Ok conv =>
              compile_files F t
                (CDir (csvs d) (dset (json_name p) conv (jsons d)))
          end
      end
  end.

(** [_compile_conventions], /repo/sofar/update_conventions.py:192-221 *)
Definition compile_conventions (F : flt_env) (d : cdir) : cdir * res unit :=
  compile_files F (csv_files d) d.

(** ** updating *)

(** The names listed on the two pages and the content of the files,
    /repo/sofar/update_conventions.py:60-72, 109 *)
Record server := Server {
  standardized : list string; deprecated : list string;
  content : bool -> string -> string }.

(** /repo/sofar/update_conventions.py:94 *)
Definition excluded (c : string) : bool :=
  startswith "General_" c || startswith "GeneralString_" c.

(** [.replace(b"\r\n", b"\n").replace(b"\t\n", b"\n")],
    /repo/sofar/update_conventions.py:111, 125-126, 145-146 *)
Definition clean (s : string) : string :=
  replace (str1 TAB +++ str1 NL) (str1 NL)
    (replace (str1 CR +++ str1 NL) (str1 NL) s).

(** local variables of the loop,
    /repo/sofar/update_conventions.py:83-89 *)
Record plan := Plan {
  p_updated : bool; p_update : list string; p_deprecate : list string;
  p_temp : dict string; p_events : list event }.

(** /repo/sofar/update_conventions.py:100-101, 153 *)
Definition deprecated_path (c : string) : string := "deprecated/" +++ c.
(** /repo/sofar/update_conventions.py:114, 121, 133, 141, 154 *)
Definition is_file (p : string) (d : cdir) : bool := dmem p (csvs d).

(** [data_current != data],
    /repo/sofar/update_conventions.py:123-127, 143-147 *)
Definition differs (p data : string) (d : cdir) : bool :=
  match dget p (csvs d) with
  | Some t => negb (String.eqb (clean t) data)
  | None => false
  end.

(** one step of the loop, /repo/sofar/update_conventions.py:91-161 *)
Definition consider (S : server) (d : cdir) (p : plan) (c : string) : plan :=
  if excluded c then p
  else
    let is_std := smem c (standardized S) in
    let data := clean (content S is_std c) in
    let upd msg path p :=
      Plan true (p_update p ++ [path]) (p_deprecate p)
        (dset path data (p_temp p))
        (p_events p ++ [EvPrint (msg +++ drop_end 4 c)]) in
    let p :=
      if is_std && negb (is_file c d) then upd "- add convention: " c p
      else p in
    if is_std && is_file c d then
      if differs c data d then upd "- update convention: " c p else p
    else if negb is_std && is_file c d then
      Plan true (p_update p) (p_deprecate p ++ [c])
        (dset (deprecated_path c) data (p_temp p))
        (p_events p ++ [EvPrint ("- deprecate convention: " +++ drop_end 4 c)])
    else if negb is_std && is_file (deprecated_path c) d then
      if differs (deprecated_path c) data d
      then upd "- update deprecated convention: " (deprecated_path c) p
      else p
    else if negb is_std && negb (is_file (deprecated_path c) d) then
      upd "- add deprecated convention: " (deprecated_path c) p
    else p.

(** /repo/sofar/update_conventions.py:72, 83-161 *)
Definition make_plan (S : server) (d : cdir) : plan :=
  fold_left (consider S d) (standardized S ++ deprecated S)
    (Plan false [] [] [] []).

(** [shutil.copy(temp/path, conventions_path/path)],
    /repo/sofar/update_conventions.py:176-177, 182-184 *)
Definition copy_file (temp : dict string) (path : string) (d : cdir)
  : cdir * res unit :=
  match dget path temp with
  | Some x => (CDir (dset path x (csvs d)) (jsons d), Ok tt)
  | None => (d, Err (Exn EOSError path))
  end.

(** /repo/sofar/update_conventions.py:175-177 *)
Fixpoint copy_files (temp : dict string) (l : list string) (d : cdir)
  : cdir * res unit :=
  match l with
  | [] => (d, Ok tt)
  | p :: t =>
      let (d1, r) := copy_file temp p d in
      match r with Ok _ => copy_files temp t d1 | Err e => (d1, Err e) end
  end.

(** /repo/sofar/update_conventions.py:178-184; [os.remove] raises FileNotFoundError *)
Fixpoint deprecate_files (temp : dict string) (l : list string) (d : cdir)
  : cdir * res unit :=
  match l with
  | [] => (d, Ok tt)
  | c :: t =>
      if negb (dmem c (csvs d)) then (d, Err (Exn EOSError c))
      else
        let d1 := CDir (ddel c (csvs d)) (jsons d) in
        if negb (dmem (json_name c) (jsons d1))
        then (d1, Err (Exn EOSError (json_name c)))
        else
          let d2 := CDir (csvs d1) (ddel (json_name c) (jsons d1)) in
          let (d3, r) := copy_file temp (deprecated_path c) d2 in
          match r with
          | Ok _ => deprecate_files temp t d3
          | Err e => (d3, Err e)
          end
  end.

(** /repo/sofar/update_conventions.py:58 *)
Definition msg_reading : string :=
  "Reading SOFA conventions from https://www.sofaconventions.org/conventions/ ...".
(** /repo/sofar/update_conventions.py:166-168 *)
Definition msg_ask : string :=
  str1 NL +++ "Do you want to update the conventions above? (y/n)" +++ str1 NL +++
  "Read the documentation before continuing. " +++
  "If updating breaks sofar it has to be re-installed".
(** /repo/sofar/update_conventions.py:171 *)
Definition msg_cancel : string :=
  str1 NL +++ "Updating the conventions was canceled.".
(** /repo/sofar/update_conventions.py:187 *)
Definition msg_done : string := "... done.".
(** /repo/sofar/update_conventions.py:189 *)
Definition msg_current : string := "... conventions already up to date.".

(** /repo/sofar/update_conventions.py:174-187 *)
Definition apply_plan (F : flt_env) (p : plan) (d : cdir) : cdir * res unit :=
  let (d1, r1) := copy_files (p_temp p) (p_update p) d in
  match r1 with
  | Err e => (d1, Err e)
  | Ok _ =>
      let (d2, r2) := deprecate_files (p_temp p) (p_deprecate p) d1 in
      match r2 with
      | Err e => (d2, Err e)
      | Ok _ => compile_conventions F d2
      end
  end.

(** what follows the downloads, /repo/sofar/update_conventions.py:163-189;
    [response] is what the user types *)
Definition carry_out (F : flt_env) (p : plan) (assume_yes : bool)
  (response : string) (d : cdir) : cdir * list event * res unit :=
  let ev := EvPrint msg_reading :: p_events p in
  if p_updated p then
    let asked := if assume_yes then [] else [EvPrint msg_ask] in
    if negb assume_yes && negb (String.eqb response "y")
    then (d, ev ++ asked ++ [EvPrint msg_cancel], Ok tt)
    else
      let (d', r) := apply_plan F p d in
      match r with
      | Ok _ => (d', ev ++ asked ++ [EvPrint msg_done], Ok tt)
      | Err e => (d', ev ++ asked, Err e)
      end
  else (d, ev ++ [EvPrint msg_current], Ok tt).

(** [update_conventions(path, assume_yes)], /repo/sofar/update_conventions.py:13-189,
    for a server that answers all requests; others: [update_online] *)
Definition update_conventions (F : flt_env) (S : server) (assume_yes : bool)
  (response : string) (d : cdir) : cdir * list event * res unit :=
  carry_out F (make_plan S d) assume_yes response d.
