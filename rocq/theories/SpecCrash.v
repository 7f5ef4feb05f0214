(** Objects for which every problem is reported as such by verify. *)
From Verif Require Import Base PyStr PyNum NdArray Sofa Verify SpecInit SpecVerify.
Open Scope string_scope.
Open Scope list_scope.

Definition well_typed (cv : convention) (o : sofa) : Prop :=
  forall k v, dget k (pub o) = Some v -> exists e, declared cv o k = Some e /\ has_type (e_type e) v.

(** [k] is contained only as an attribute *)
Definition attribute_if_contained (cv : convention) (o : sofa) (k : string) : Prop :=
  contained o k -> exists e, declared cv o k = Some e /\ e_type e = "attribute".

(** a list of allowed values; there is one value for units *)
Definition reference_ok (k : string) (ref : list string) : Prop :=
  endswith "Units" k = true -> exists u, ref = [u].

(** What is not reported but raises other errors: arrays of texts of unusual
    shape, dimensions without size, rules for data that are not attributes or
    for dimensions without size, variables named as units. *)
Record checkable (E : env) (m : vmode) (o : sofa) (cv : convention) : Prop := {
  ck_sized : sized cv o;
  ck_texts : forall k e v, In k (variables cv o) -> declared cv o k = Some e -> dget k (pub o) = Some v ->
    e_type e <> "double" -> exists s ls, strings v s ls;
  ck_letters : forall k e d alt, In k (variables cv o) -> declared cv o k = Some e -> e_dims e = Some d ->
    In alt (alternatives d) -> letters_known cv o alt;
  ck_new : custom o = None \/ exists b c b' v,
    dget "GLOBAL_SOFAConventions" (pub o) = Some (VStr b c)
    /\ dget "GLOBAL_SOFAConventionsVersion" (pub o) = Some (VStr b' v)
    /\ is_ok (snd (sofa_init E c false v VAuto)) = true;
  ck_rules : forall k r, In (k, r) (rules E) ->
    (r_value r <> None \/ r_specific r <> None -> attribute_if_contained cv o (python_name k))
    /\ (forall ref, r_value r = Some ref -> reference_ok (python_name k) ref)
    /\ forall sp b s items kd, r_specific r = Some sp -> dget (python_name k) (pub o) = Some (VStr b s) ->
         dget (dep_case s) sp = Some items -> In kd items ->
         match snd kd with
         | DepDims l => forall d ns t, In (d, (ns, t)) l -> exists n, size cv o d n
         | DepVal None => True
         | DepVal (Some ref) => attribute_if_contained cv o (python_name (fst kd))
                                /\ reference_ok (python_name (fst kd)) ref
         end;
  ck_units : m = VWrite -> forall k, endswith "Units" k = true -> attribute_if_contained cv o k }.

(** ** Verifying twice *)

(** Conventions whose mandatory entries pass the checks: the default values have
    the declared type and the names follow the rules. *)
Definition db_sound (E : env) : Prop :=
  forall f k e, In f (db E) -> dget k (sofar_keys (snd f)) = Some e -> is_mandatory (e_flags e) = true ->
    (forall w, added_default e w -> has_type (e_type e) w)
    /\ name_ok (fun x => dget x (sofar_keys (snd f))) k (e_type e).

(** the warning about the added entries [keys], /repo/sofar/sofa.py:1000-1009 *)
Definition added_text (keys : list string) : string :=
  "Added mandatory data with default values:" +++ nl
  +++ String.concat "" (map (fun k => "- " +++ k +++ nl) keys).
