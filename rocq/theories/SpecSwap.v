(** Specification of the independence from the directory of the conventions: the
    order in which its files are listed and files of other conventions. *)
From Verif Require Import Base PyStr PyNum NdArray Sofa Verify Io SpecAttr.
Open Scope string_scope.
Open Scope list_scope.

(** the same environment with other convention files *)
Definition with_db (E : env) (d : list (string * convention)) : env :=
  Env d (rules E) (aliases E) (deprecations E) (upgrades E) (str_of E) (type_of E) (now E) (sofar_version E) (python_version E).

(** the same value, or an exception of the same class *)
Definition same_result {A} (r r' : res A) : Prop :=
  match r, r' with
  | Ok a, Ok b => a = b
  | Err e, Err f => exn_kind e = exn_kind f
  | _, _ => False
  end.

(** the same object, the same warnings and printed texts, and the same result *)
Definition same_call {A} (x y : sofa * list event * res A) : Prop :=
  m_obj x = m_obj y /\ m_out x = m_out y /\ same_result (m_res x) (m_res y).

(** [l'] is [l] with further files of the convention [n] at any places *)
Inductive inserted (n : string) : list (string * convention) -> list (string * convention) -> Prop :=
| ins_nil : inserted n [] []
| ins_keep f l l' : inserted n l l' -> inserted n (f :: l) (f :: l')
| ins_new v cv l l' : has_char "_" v = false -> inserted n l l' ->
    inserted n l ((n +++ "_" +++ v +++ ".json", cv) :: l').

(** the object does not state the convention [n] *)
Definition not_of (n : string) (o : sofa) : Prop :=
  forall b c, In ("GLOBAL_SOFAConventions", VStr b c) (pub o) -> c <> n.

(** the calls of the API give the same results *)
Definition same_new (x y : list event * res sofa) : Prop := fst x = fst y /\ same_result (snd x) (snd y).

(** the name of the convention in the file is a text other than [n], and no variable and no attribute
    of a variable is read into the entry that holds the name *)
Definition file_not_of (n : string) (f : ncfile) : Prop :=
  (forall w, In ("SOFAConventions", w) (nf_attrs f) -> exists b c, w = VStr b c /\ c <> n)
  /\ (forall var v, In (var, v) (nf_vars f) -> sofa_name var <> "GLOBAL_SOFAConventions"
       /\ forall b w, In (b, w) (nv_attrs v) -> sofa_name var +++ "_" +++ b <> "GLOBAL_SOFAConventions").

(** no upgrade writes the name of a convention by moving data *)
Definition moves_no_name (E : env) : Prop :=
  forall c u id sp s mv, dget c (upgrades E) = Some u -> dget id (u_specs u) = Some sp -> In (s, mv) (u_move sp) ->
    sofar_name (mv_target mv) <> "GLOBAL_SOFAConventions".
