(** Specifications for writing an object and reading it again: which objects can
    be stored in a NetCDF file and when the data are the same afterwards. *)
From Verif Require Import Base PyStr PyNum NdArray Sofa Verify SpecInit SpecVerify SpecEquals Io SpecIo.
Open Scope string_scope.
Open Scope list_scope.
Open Scope nat_scope.

(** ** Objects that can be stored *)

(** attributes that the library can set *)
Definition legal_attr (members : list string) (n : string) : Prop :=
  ~ In n members /\ ~ In n special_attrs /\ (forall r, n <> r +++ "__") /\ name_valid n = true.

(** all alternatives have the same number of letters; texts have the additional
    axis S at the end, numbers do not *)
Definition dims_tidy (dtype d : string) : Prop :=
  forall alt, In alt (alternatives d) ->
    alt <> "" /\ String.length alt = String.length (hd "" (split "," d))
    /\ has_char "s" alt = false
    /\ (dtype = "double" -> has_char "S" alt = false)
    /\ (dtype = "string" -> exists b, alt = b +++ "S" /\ has_char "S" b = false).

Definition elements (v : value) : list elt :=
  match v with
  | VStr _ s => [EStr s]
  | VScal e => [e]
  | VArr a => a_data a
  | VList _ => []
  end.

(** the array has not more axes than there are letters, except for singleton
    dimensions *)
Definition axes_fit (dtype : string) (n : nat) (s : list nat) : Prop :=
  (forall m, In m (skipn n s) -> m = 1) \/ (dtype = "double" /\ n = 1 /\ List.length (sh_squeeze s) <= 1).

Definition is_variable (cv : convention) (o : sofa) (k : string) (e : entry) (v : value) : Prop :=
  declared cv o k = Some e /\ e_type e <> "attribute" /\ dget k (pub o) = Some v.

(** as [regular_value], or an array of floats with missing elements *)
Definition sound_value (v : value) : Prop :=
  regular_value v \/
  exists a, v = VArr a /\ wf_arr a = true /\ a_mask a = true /\ a_kind a = KF
    /\ In EObj (a_data a) /\ forall x, In x (a_data a) -> x = EObj \/ exists f, x = EFlt f.

Record storable (cv : convention) (o : sofa) : Prop := {
  st_sound : forall k v, dget k (pub o) = Some v -> sound_value v;
  st_gattr : forall r, contained o ("GLOBAL_" +++ r) -> legal_attr dataset_members r;
  st_vattr : forall k e v r, is_variable cv o k e v -> contained o (k +++ "_" +++ r) ->
    legal_attr variable_members r;
  st_name : forall k e v, is_variable cv o k e v ->
    has_char "." k = false /\ name_valid (netcdf_name k) = true;
  st_dims : forall k e v, is_variable cv o k e v ->
    exists d, e_dims e = Some d /\ dims_tidy (e_type e) d
      /\ axes_fit (e_type e) (String.length (main_alternative d)) (shape_of v);
  st_numbers : forall k e v, is_variable cv o k e v -> e_type e = "double" -> prod (shape_of v) <> 0;
  st_texts : forall k e v, is_variable cv o k e v -> e_type e = "string" ->
    ascii_value v /\ (size cv o "S" 0 -> prod (shape_of v) = 1) }.

(** ** Data that are the same after writing and reading *)
Definition is_attribute (cv : convention) (o : sofa) (k : string) : Prop :=
  contained o k /\ exists e, declared cv o k = Some e /\ e_type e = "attribute".

(** [k] is the attribute [r] of the variable [j] *)
Definition attribute_of (cv : convention) (o : sofa) (j r k : string) : Prop :=
  (exists e v, is_variable cv o j e v) /\ k = j +++ "_" +++ r.

Record faithful (cv : convention) (o : sofa) : Prop := {
  (** names that can be assigned *)
  fa_clean : forall k, contained o k -> clean_key k;
  (** every attribute is a global attribute or belongs to one variable of the
      object; no variable looks like an attribute of another variable *)
  fa_home : forall k, is_attribute cv o k ->
    (exists r, k = "GLOBAL_" +++ r) \/ exists j r, attribute_of cv o j r k;
  fa_once : forall j r k, attribute_of cv o j r k -> contained o k ->
    is_attribute cv o k /\ (forall s, k <> "GLOBAL_" +++ s) /\ r <> "_Encoding"
    /\ forall j' r', attribute_of cv o j' r' k -> j' = j;
  fa_global : forall r, contained o ("GLOBAL_" +++ r) -> is_attribute cv o ("GLOBAL_" +++ r);
  (** attributes without NULs, texts that do not end in NULs *)
  fa_attrs : forall k b t, is_attribute cv o k -> dget k (pub o) = Some (VStr b t) ->
    has_char Ascii.zero t = false;
  fa_texts : forall k e v t, is_variable cv o k e v -> In (EStr t) (elements v) ->
    forall r, t <> r +++ nuls 1;
  (** the number that marks missing data in NetCDF files *)
  fa_numbers : forall k e v x f, is_variable cv o k e v -> In x (elements v) -> number x f ->
    f_eqb fill64 f = false }.

(** the number [x] as double, or missing as before *)
Definition kept_elt (x y : elt) : Prop :=
  (exists f, number x f /\ y = EFlt f) \/ (x = EObj /\ y = EObj).

(** the same entries with the same values; the shapes of the arrays are equal up
    to singleton dimensions *)
Record same_entries (cv : convention) (o p : sofa) : Prop := {
  se_names : forall k, contained p k <-> contained o k;
  se_attrs : forall k, is_attribute cv o k ->
    exists b t, dget k (pub o) = Some (VStr b t) /\ dget k (pub p) = Some (VStr false t);
  se_numbers : forall k e v, is_variable cv o k e v -> e_type e = "double" ->
    exists w s d, dget k (pub p) = Some w /\ value_is w s d /\ masked w = masked v
      /\ Forall2 kept_elt (elements v) d /\ sh_squeeze s = sh_squeeze (shape_of v)
      /\ (forall a, w = VArr a -> a_kind a = KF);
  se_texts : forall k e v, is_variable cv o k e v -> e_type e = "string" ->
    exists w s, dget k (pub p) = Some w /\ value_is w s (elements v) /\ masked w = false
      /\ sh_squeeze s = sh_squeeze (shape_of v) }.

(** ** Objects that can be verified after writing and reading them *)
Record readable_again (E : env) (cv : convention) (o : sofa) : Prop := {
  (** a dimension that is set by a variable has the same position in all
      alternatives; up to four dimensions *)
  ra_letters : forall k e v d alt i x, is_variable cv o k e v -> e_dims e = Some d -> In alt (alternatives d) ->
    nth_error (chars (main_alternative d)) i = Some x -> is_lower_ascii x = true ->
    exists y, nth_error (chars alt) i = Some y /\ upper_char y = upper_char x;
  ra_four : forall k e v d, is_variable cv o k e v -> e_dims e = Some d -> String.length (main_alternative d) <= 4;
  (** custom entries as declared by [add_variable] and [add_attribute] *)
  ra_custom : forall k e, dget k (own_custom cv o) = Some e ->
    contained o k /\ forall d, e_dims e = Some d -> alternatives d = [d] /\ smap custom_dim_char d = d;
  ra_attr : forall k e, is_attribute cv o k -> declared cv o k = Some e -> e_dims e = None;
  (** the data written by the constructor are part of the convention *)
  ra_created : forall k, In k (dkeys (creation_entries E)) -> dget k cv <> None;
  ra_method : forall k, contained o k -> ~ In k class_attrs;
  (** rules for values refer to attributes *)
  ra_rules : forall k r, In (k, r) (rules E) -> contained o (python_name k) ->
    r_value r <> None \/ r_specific r <> None -> is_attribute cv o (python_name k);
  ra_deps : forall k r sp x items d ref, In (k, r) (rules E) -> r_specific r = Some sp -> In (x, items) sp ->
    In (d, DepVal (Some ref)) items -> contained o (python_name d) -> is_attribute cv o (python_name d) }.
