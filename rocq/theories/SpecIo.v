(** Specifications for reading and writing files: what a NetCDF file contains
    and what of it is found in an object. *)
From Verif Require Import Base PyStr PyNum NdArray Sofa Verify SpecInit SpecVerify SpecEquals Io.
Open Scope string_scope.
Open Scope list_scope.
Open Scope nat_scope.

(** ** Well-formed files *)

(** values of attributes: text, a number, numbers or several texts *)
Definition attr_wf (v : value) : Prop :=
  match v with
  | VStr _ _ => True
  | VScal e => elt_kind e = KI \/ elt_kind e = KF
  | VArr _ => True
  | VList l => exists s t r, l = map (VStr false) (s :: t :: r)
  end.

(** as many elements as given by the shape *)
Definition var_wf (x : ncvar) : Prop :=
  match nv_data x with
  | DNum k _ d => (k = KI \/ k = KF) /\ List.length d = prod (nv_shape x)
                  /\ forall e, In e d -> elt_kind e = k
  | DChar s => String.length s = prod (nv_shape x)
  | DOther => True
  end.

Record file_wf (f : ncfile) : Prop := {
  fw_attrs : forall a v, In (a, v) (nf_attrs f) -> attr_wf v;
  fw_vars : forall n x, In (n, x) (nf_vars f) -> var_wf x;
  fw_vattrs : forall n x a v, In (n, x) (nf_vars f) -> In (a, v) (nv_attrs x) -> attr_wf v }.

(** ** Names of the data of a file in Python: dots become underscores *)
Definition undotted (n : string) : string :=
  smap (fun c => if Ascii.eqb c "." then "_"%char else c) n.

Definition file_names (f : ncfile) : list string :=
  map (fun a => "GLOBAL_" +++ a) (dkeys (nf_attrs f))
  ++ flat_map (fun nx => undotted (fst nx)
        :: map (fun a => undotted (fst nx) +++ "_" +++ a)
               (filter (fun a => negb (String.eqb a "_Encoding")) (dkeys (nv_attrs (snd nx)))))
       (nf_vars f).

(** ** Values *)

(** the value as array: shape and elements, all of the kind of the array or
    missing *)
Definition value_is (w : value) (s : list nat) (d : list elt) : Prop :=
  match w with
  | VStr _ t => s = [] /\ d = [EStr t]
  | VScal e => s = [] /\ d = [e] /\ elt_kind e <> KU
  | VArr a => s = a_shape a /\ d = a_data a
              /\ forall e, In e d -> elt_kind e = a_kind a \/ (a_mask a = true /\ e = EObj)
  | VList _ => False
  end.
Definition masked (w : value) : bool := match w with VArr a => a_mask a | _ => false end.

(** an attribute of the file and the entry of the object *)
Definition attr_held (v w : value) : Prop :=
  match v with
  | VList l => exists ss, l = map (VStr false) ss
               /\ w = VArr (Arr KU [1; List.length ss] (map EStr ss) false)
  | _ => w = v
  end.

(** the characters [i * n] to [(i + 1) * n - 1] of [t] *)
Definition piece (n i : nat) (t : string) : string := stake n (sdrop (i * n) t).

(** the texts stored in an array of characters with the extents [s ++ [n]] *)
Definition texts_in (s : list nat) (n : nat) (t : string) (ts : list string) : Prop :=
  List.length ts = prod s
  /\ forall i u, nth_error ts i = Some u ->
       (exists m, piece n i t = u +++ nuls m) /\ (forall r, u <> r +++ nuls 1).

(** an element of the file and the one of the array: the fill value stands for
    missing data *)
Definition element_read (fill : option elt) (x y : elt) : Prop :=
  ((exists f, fill = Some f /\ elt_eqb f x = true) /\ y = EObj)
  \/ ((forall f, fill = Some f -> elt_eqb f x = false) /\ y = x).

(** shape and elements of a variable *)
Inductive var_holds (x : ncvar) : list nat -> list elt -> Prop :=
| vh_num k fill d d' : nv_data x = DNum k fill d -> Forall2 (element_read fill) d d' ->
    var_holds x (nv_shape x) d'
| vh_char s n t ts : nv_data x = DChar t -> nv_shape x = s ++ [n] -> texts_in s n t ts ->
    var_holds x (match s with [] => [1] | _ => s end) (map EStr ts).

(** missing data *)
Definition has_missing (x : ncvar) : bool :=
  match nv_data x with
  | DNum _ (Some e) d => existsb (elt_eqb e) d
  | _ => false
  end.

(** A variable of the file and the entry of the object: the same elements in the
    same order with the shape of the file, for a single element without the
    first axis. Arrays without axes are only read for variables without axes and
    for missing data. Arrays of numbers have the type of the file. *)
Definition var_held (x : ncvar) (w : value) : Prop :=
  exists s s' d, var_holds x s d /\ value_is w s' d /\ masked w = has_missing x
    /\ (s' = s \/ (prod s = 1 /\ s' = tl s))
    /\ (forall a, w = VArr a -> s' = [] -> s = [] \/ has_missing x = true)
    /\ (forall a k fill l, w = VArr a -> nv_data x = DNum k fill l -> a_kind a = k).

(** the object [p] contains exactly the data of the file *)
Record same_data (f : ncfile) (p : sofa) : Prop := {
  sd_names : forall k, contained p k <-> In k (file_names f);
  sd_attrs : forall a v, In (a, v) (nf_attrs f) ->
    exists w, dget ("GLOBAL_" +++ a) (pub p) = Some w /\ attr_held v w;
  sd_vars : forall n x, In (n, x) (nf_vars f) ->
    exists w, dget (undotted n) (pub p) = Some w /\ var_held x w;
  sd_vattrs : forall n x a v, In (n, x) (nf_vars f) -> In (a, v) (nv_attrs x) -> a <> "_Encoding" ->
    exists w, dget (undotted n +++ "_" +++ a) (pub p) = Some w /\ attr_held v w }.

(** ** File names *)

(** the start of an absolute path: one slash, or exactly two of them *)
Inductive root_of : string -> string -> Prop :=
| root_none p : (forall t, p <> "/" +++ t) -> root_of p ""
| root_one t : (forall u, t <> "/" +++ u) -> root_of ("/" +++ t) "/"
| root_many u : root_of ("///" +++ u) "/"
| root_two t : (forall u, t <> "/" +++ u) -> root_of ("//" +++ t) "//".

(** a text stands for the path with the root [r] and the names [l]: the texts between the
    slashes without empty ones and single dots *)
Definition named (c : string) : bool := negb (String.eqb c "" || String.eqb c ".").
Definition denotes (p r : string) (l : list string) : Prop :=
  root_of p r /\ exists cs, cs <> [] /\ p = join "/" cs /\ Forall (fun c => has_char "/" c = false) cs
    /\ l = filter named cs.

(** the usual text of a path *)
Definition path_text (r : string) (l : list string) : string := r +++ join "/" l.

(** the file that is addressed by a name *)
Definition file_at (s : fs) (name : string) (f : ncfile) : Prop :=
  exists p, sofa_path name = Ok p /\ dget p (fs_files s) = Some (Some f).

(** ** Files that can be read *)

(** variables with numbers or ASCII characters and at least one axis *)
Definition var_readable (x : ncvar) : Prop :=
  match nv_data x with
  | DNum _ _ _ => nv_shape x <> []
  | DChar t => (exists s n, nv_shape x = s ++ [n] /\ n <> 0)
               /\ forall c, In c (chars t) -> nat_of_ascii c < 128
  | DOther => False
  end.

(** no attribute is named as a member of the classes of the library or changes
    how the library reads a variable; no name is private or taken by
    [list_dimensions] and [protected] *)
Definition file_readable (f : ncfile) : Prop :=
  (forall a, In a (dkeys (nf_attrs f)) -> ~ In a dataset_members)
  /\ (forall n x, In (n, x) (nf_vars f) -> var_readable x
        /\ (forall a, In a (dkeys (nv_attrs x)) -> ~ In a special_attrs)
        /\ (forall a, In a (dkeys (nv_attrs x)) -> a <> "_Encoding" -> ~ In a variable_members))
  /\ (forall k, In k (file_names f) -> clean_key k).
