(** Specifications for creating, changing, adding and deleting data:
    histories of public operations, well-formed convention files. *)
From Verif Require Import Base PyStr PyNum NdArray Sofa Verify Upgrade.
Open Scope string_scope.
Open Scope list_scope.

(** ** Public operations of a user on one object *)
Inductive op :=
| OSet (name : string) (v : value)            (* sofa.name = v *)
| ODel (name : string)                        (* del sofa.name, sofa.delete(name) *)
| OAddVar (name : string) (v : value) (dtype : string) (dimensions : option string)
| OAddAttr (name : string) (v : value)
| OMissing (mandatory optional verbose : bool)
| OVerify (h : handling) (m : vmode)
| OGetDim (d : string)
| OListDims
| OInspect (h : handling)
| OInfo (what : string)
| OAskUpgrade.                                (* upgrade_convention() *)

Definition run_op (E : env) (p : op) : M unit :=
  match p with
  | OSet n v => set_attr n v
  | ODel n => del_attr n
  | OAddVar n v t d => add_variable n v t d
  | OAddAttr n v => add_attribute n v
  | OMissing m o b => add_missing E m o b
  | OVerify h m => do_ verify E h m; ret tt
  | OGetDim d => do_ get_dimension E d; ret tt
  | OListDims => list_dimensions E
  | OInspect h => inspect E h
  | OInfo w => info E w
  | OAskUpgrade => do_ upgrade_convention E None VAuto; ret tt
  end.

(** the object after an operation, whether it returned or raised *)
Definition step (E : env) (o : sofa) (p : op) : sofa := m_obj (run_op E p o).
Definition run (E : env) (o : sofa) (ops : list op) : sofa := fold_left (step E) ops o.

(** the object is protected before, between and after the operations *)
Definition protected_run (E : env) (o : sofa) (ops : list op) : Prop :=
  forall n, prot (run E o (firstn n ops)) = true.

(** ** Convention files as distributed: named Convention_Version.json, stating
    their own name and version in read-only mandatory entries; no entry is
    called "protected" *)
Definition states_own (key own : string) (c : convention) : Prop :=
  exists e b, dget key c = Some e /\ is_mandatory (e_flags e) = true
            /\ is_read_only (e_flags e) = true /\ e_default e = VStr b own.

Definition file_ok (f : string * convention) : Prop :=
  exists c v, fst f = c +++ "_" +++ v +++ ".json"
    /\ has_char "_" c = false /\ has_char "_" v = false
    /\ float_str v = Some v /\ v <> "latest"
    /\ ~ In "protected" (dkeys (sofar_keys (snd f)))
    /\ states_own "GLOBAL_SOFAConventions" c (sofar_keys (snd f))
    /\ states_own "GLOBAL_SOFAConventionsVersion" v (sofar_keys (snd f)).

Definition db_ok (E : env) : Prop :=
  NoDup (map fst (db E)) /\ forall f, In f (db E) -> file_ok f.

(** ** An object that follows the convention [cv] (name [c], version [v]) and
    whose read-only data are known. True for objects returned by Sofa(...), see
    theorem [armed_init]. *)
Record armed_with (E : env) (o : sofa) (c v : string) (cv : convention) : Prop := {
  ar_name : exists b, dget "GLOBAL_SOFAConventions" (pub o) = Some (VStr b c);
  ar_version : exists b, dget "GLOBAL_SOFAConventionsVersion" (pub o) = Some (VStr b v);
  ar_load : load_convention E c v = Ok cv;
  ar_sub : forall k e, dget k cv = Some e -> dget k (conv o) = Some e;
  ar_sup : forall k e, dget k (conv o) = Some e -> e_flags e <> None ->
                       dget k cv = Some e;
  ar_ro : forall k e, dget k cv = Some e -> is_read_only (e_flags e) = true ->
                      in_ro k (ro o) = true;
  ar_name_ro : exists e, dget "GLOBAL_SOFAConventions" cv = Some e
      /\ is_mandatory (e_flags e) = true /\ is_read_only (e_flags e) = true;
  ar_version_ro : exists e, dget "GLOBAL_SOFAConventionsVersion" cv = Some e
      /\ is_mandatory (e_flags e) = true /\ is_read_only (e_flags e) = true;
  ar_custom : forall cu k e, custom o = Some cu -> In (k, e) cu -> e_flags e = None }.

Definition armed (E : env) (o : sofa) : Prop := exists c v cv, armed_with E o c v cv.

(** operations that neither switch the protection off nor add a value that
    can not be stored (nested lists that are not rectangular) *)
Definition safe_op (p : op) : Prop :=
  match p with
  | OSet n v => n <> "protected" \/ v = VScal (EBool true)
  | OAddVar n v _ _ | OAddAttr n v => is_private n = false /\ is_ok (normalize v) = true
  | _ => True
  end.
