(** The argument compression of write_sofa.

    The definitions repeat those of [Io.v] with the calls that depend on the
    level; [write_sofa] of [Io.v] is the function without them. *)
From Verif Require Import Base PyStr PyNum NdArray Sofa Verify Io.
From Coq Require Import ZArith.
Open Scope string_scope.
Open Scope list_scope.
Open Scope nat_scope.

(** compression of a new variable: [nc_def_var_deflate] is called if zlib is
    true, the level is not 0 and the variable has dimensions, and accepts levels
    up to 9. The variable exists already if it raises. Simplification: levels are
    integers; those that do not fit into a C integer raise OverflowError instead
    of RuntimeError.
    /repo/sofar/io.py:327-329 *)
Definition deflate (zlib : bool) (level : Z) (ds : list string) : W := fun f =>
  if zlib && negb (Z.eqb level 0) && negb (match ds with [] => true | _ => false end)
     && negb ((0 <=? level)%Z && (level <=? 9)%Z)
  then (f, Err (Exn ERuntimeError "NetCDF: Invalid argument"))
  else (f, Ok tt).

(** one variable with its attributes, /repo/sofar/io.py:307-339 *)
Definition write_entry_at (E : env) (zlib : bool) (level : Z) (o : sofa) (key : string) : W :=
  wlift (dgetE key (conv o)) (fun e =>
  if String.eqb (e_type e) "attribute" then wret
  else
    wlift (getattr o key) (fun v =>
    wlift (match dims o with Some d => dgetE key d | None => Err (Exn EAttributeError "_dimensions") end) (fun d =>
    wlift (match api o with Some a => dgetE "S" a | None => Err (Exn EAttributeError "_api") end) (fun s =>
    wlift (format_for_netcdf v key (e_type e) d s) (fun x =>
    let '(shape, data, is_string) := x in
    wseq (create_var (netcdf_name key) is_string (map str1 (chars d)))
    (wseq (deflate zlib level (map str1 (chars d)))
    (wseq (assign_var (netcdf_name key) shape data)
    (wfor (filter (startswith (key +++ "_")) (dkeys (pub o))) (fun k =>
       wlift (getattr o k) (fun w =>
       write_vattr (netcdf_name key) (sdrop (String.length key + 1) k) (py_str E w))))))))))).

(** the content of the file, /repo/sofar/io.py:294-339 *)
Definition write_content_at (E : env) (zlib : bool) (level : Z) (o : sofa) : W :=
  wseq (wfor (match api o with Some a => a | None => [] end) (fun dn => create_dim (fst dn) (snd dn)))
  (wseq (wfor (filter (startswith "GLOBAL_") (dkeys (pub o))) (fun k =>
           wlift (getattr o k) (fun w => write_gattr (sdrop 7 k) (py_str E w))))
        (wfor (dkeys (pub o)) (write_entry_at E zlib level o))).

(** [write_sofa(filename, sofa, compression)], /repo/sofar/io.py:224-339 *)
Definition write_sofa_at (E : env) (name : string) (o : sofa) (level : Z) (s : fs)
  : fs * (sofa * list event * res unit) :=
  match prepare_write E name o with
  | (o', ev, Err e) => (s, (o', ev, Err e))
  | (o', ev, Ok p) =>
      let zlib := negb (Z.eqb level 0) in
      if fs_writable s p then
        let '(f, r) := write_content_at E zlib level o' empty_file in
        (fs_set p f s, (o', ev, r))
      else (s, (o', ev, Err (Exn EOSError p)))
  end.
