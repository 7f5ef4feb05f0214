(** Specification of the objects a program can obtain with the API. *)
From Verif Require Import Base PyStr PyNum NdArray Sofa Verify Upgrade Io SpecAttr SpecVerify SpecUpgrade SpecIo.
Open Scope string_scope.
Open Scope list_scope.

(** values that exist in Python: arrays have as many elements as given by their
    shape, also inside of lists *)
Inductive input : value -> Prop :=
| in_str b s : input (VStr b s)
| in_scal x : input (VScal x)
| in_arr a : wf_arr a = true -> input (VArr a)
| in_list l : (forall v, In v l -> input v) -> input (VList l).

Definition op_input (p : op) : Prop :=
  match p with
  | OSet _ v | OAddVar _ v _ _ | OAddAttr _ v => input v
  | _ => True
  end.

(** default values in the convention files *)
Definition defaults_ok (E : env) : Prop :=
  forall f k e, In f (db E) -> In (k, e) (snd f) -> input (e_default e).

(** readable files: as many elements as given by the shapes *)
Record file_sound (f : ncfile) : Prop := {
  fo_wf : file_wf f;
  fo_attrs : forall a v, In (a, v) (nf_attrs f) -> input v;
  fo_vattrs : forall n x a v, In (n, x) (nf_vars f) -> In (a, v) (nv_attrs x) -> input v }.
Definition disk_sound (s : fs) : Prop :=
  forall p f, dget p (fs_files s) = Some (Some f) -> file_sound f.

(** Programs: the files and the objects of a program after any sequence of calls
    that return or raise. Objects are created, read and copied; calls can change
    them. *)
Inductive world (E : env) : fs -> list sofa -> Prop :=
| wo_start s : disk_sound s -> world E s []
| wo_create s os c m v vo ev o : world E s os -> sofa_init E c m v vo = (ev, Ok o) -> world E s (o :: os)
| wo_read s os name vo verbose ev o : world E s os ->
    read_sofa E s name vo verbose = (ev, Ok o) -> world E s (o :: os)
| wo_read_netcdf s os name ev o : world E s os ->
    read_sofa_as_netcdf s name = (ev, Ok o) -> world E s (o :: os)
| wo_copy s os o : world E s os -> In o os -> world E s (o :: os)
| wo_call s pre o post p : world E s (pre ++ o :: post) -> op_input p ->
    world E s (pre ++ step E o p :: post)
| wo_upgrade s pre o post t vo : world E s (pre ++ o :: post) ->
    world E s (pre ++ m_obj (upgrade_convention E t vo o) :: post)
| wo_write s pre o post name : world E s (pre ++ o :: post) ->
    world E (fst (write_sofa E name o s)) (pre ++ m_obj (snd (write_sofa E name o s)) :: post).

(** what holds for all objects: no name twice; texts, numbers and arrays with as
    many elements as given by the shape; no private names; custom entries are
    never mandatory *)
Record sound (o : sofa) : Prop := {
  so_dicts : dicts_ok o;
  so_values : plain o;
  so_names : forall k, contained o k -> is_private k = false /\ k <> "protected";
  so_custom : forall cu k e, custom o = Some cu -> In (k, e) cu -> is_mandatory (e_flags e) = false /\ k <> "protected" }.
