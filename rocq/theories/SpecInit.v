(** Specifications for creating objects and add_missing. *)
From Verif Require Import Base PyStr PyNum NdArray Sofa Verify.
Open Scope string_scope.
Open Scope list_scope.

(** entries written by the constructor itself *)
Definition creation_entries (E : env) : dict string :=
  [("GLOBAL_DateCreated", now E); ("GLOBAL_DateModified", now E);
   ("GLOBAL_APIName", "sofar SOFA API for Python (pyfar.org)");
   ("GLOBAL_APIVersion", sofar_version E);
   ("GLOBAL_ApplicationName", "Python");
   ("GLOBAL_ApplicationVersion", python_version E)].

(** two arrays with the same elements in the same order whose shapes differ at
    most in singleton dimensions *)
Definition same_content (a b : arr) : Prop :=
  a_kind a = a_kind b /\ a_data a = a_data b
  /\ sh_squeeze (a_shape a) = sh_squeeze (a_shape b).

(** [w] is the default value of the entry as contained in a new object: strings
    and scalars as they are, lists as array with these elements and at least as
    many dimensions as declared *)
Definition holds_default (e : entry) (w : value) : Prop :=
  match e_default e with
  | VStr b s => w = VStr b s
  | VScal (EStr s) => w = VStr true s
  | VScal x => w = VScal x
  | VArr a => w = VArr a
  | VList l =>
      exists a b d, w = VArr a /\ np_array (VList l) = Ok b /\ same_content a b
        /\ e_dims e = Some d
        /\ (String.length (hd "" (split ", " d)) <= a_ndim a)
  end.

(** content of a new object of convention [cv] *)
Definition new_content (E : env) (cv : convention) (mandatory : bool) (p : dict value) : Prop :=
  forall k,
    match dget k (creation_entries E) with
    | Some s => dget k p = Some (VStr false s)
    | None =>
        match dget k cv with
        | Some e => if is_mandatory (e_flags e) || negb mandatory
                    then exists w, dget k p = Some w /\ holds_default e w
                    else dget k p = None
        | None => dget k p = None
        end
    end.

(** names that can be assigned (not the names of the two properties) *)
Definition clean_key (k : string) : Prop :=
  is_private k = false /\ k <> "list_dimensions" /\ k <> "protected".

(** an entry that can be added with its default value *)
Definition entry_fine (ke : string * entry) : Prop :=
  clean_key (fst ke) /\ is_ok (normalize (e_default (snd ke))) = true.

(** conventions whose entries can all be added *)
Definition db_tidy (E : env) : Prop :=
  forall f ke, In f (db E) -> In ke (sofar_keys (snd f)) -> entry_fine ke.

(** [w] is the default value of the entry as added to an existing object:
    lists with a single element become scalars *)
Definition added_default (e : entry) (w : value) : Prop :=
  match e_default e with
  | VStr b s => w = VStr b s
  | VScal (EStr s) => w = VStr true s
  | VScal x => w = VScal x
  | VArr a => w = VArr a
  | VList l =>
      exists b, np_array (VList l) = Ok b
        /\ (prod (a_shape b) = 1 ->
            exists x t, a_data b = x :: t
              /\ w = match x with EStr s => VStr true s | _ => VScal x end)
        /\ (prod (a_shape b) <> 1 -> exists a, w = VArr a /\ same_content a b)
  end.

(** the file of a convention and version *)
Definition file_name (c v : string) : string := c +++ "_" +++ v +++ ".json".
Definition has_file (E : env) (c v : string) (content : convention) : Prop :=
  In (file_name c v, content) (db E).

(** names as used in Python: "Data.IR:Units" is "Data_IR_Units" *)
Definition python_name (k : string) : string :=
  smap (fun c => if Ascii.eqb c ":" || Ascii.eqb c "." then "_"%char else c) k.

(** version numbers "major.digit" *)
Definition short_version (v : string) : Prop :=
  exists i d n, v = i +++ "." +++ str1 d /\ num_val i = Some n /\ is_digit d = true.

(** default values as found in json files: strings, numbers, null and lists of
    these *)
Fixpoint json_value (v : value) : bool :=
  match v with
  | VStr _ _ | VScal _ => true
  | VArr _ => false
  | VList l => forallb json_value l
  end.

(** two values with the same elements in the same order whose shapes differ at
    most in singleton dimensions *)
Definition same_elements (v w : value) : Prop :=
  exists a b, np_array v = Ok a /\ np_array w = Ok b /\ a_data a = a_data b
    /\ sh_squeeze (a_shape a) = sh_squeeze (a_shape b).
