(** Specification of objects that differ in one entry: what an entry has to
    fulfil itself, and what others can require from it. *)
From Verif Require Import Base PyStr PyNum NdArray Sofa Verify SpecInit SpecVerify.
Open Scope string_scope.
Open Scope list_scope.

(** [o] is [o'] without the entry [k]; [k] is declared by [e] and has the value
    [w] in [o'] *)
Record without (cv : convention) (k : string) (e : entry) (w : value) (o' o : sofa) : Prop := {
  wo_value : dget k (pub o') = Some w;
  wo_entry : declared cv o' k = Some e;
  wo_pub : pub o = filter (fun x => negb (String.eqb (fst x) k)) (pub o');
  wo_own : own_custom cv o = filter (fun x => negb (String.eqb (fst x) k)) (own_custom cv o') }.

(** what verify demands from the entry [k] alone *)
Record entry_valid (E : env) (m : vmode) (cv : convention) (o : sofa) (k : string) (e : entry) (w : value) : Prop := {
  ev_type : has_type (e_type e) w;
  ev_name : name_ok (declared cv o) k (e_type e);
  ev_clash : dget k cv = None -> forall n, In n (dkeys cv) ->
    replace "GLOBAL_" "" k <> replace "GLOBAL_" "" n;
  ev_axes : forall c n, In (c, n) (states cv o k) -> n <> None;
  ev_strings : string_variable cv o k -> exists s ls, strings w s ls;
  ev_shape : e_dims e <> None -> shape_ok cv o k;
  ev_rules : forall j r, In (j, r) (rules E) -> python_name j = k -> rule_ok E cv o k r;
  ev_units : m = VWrite -> endswith "Units" k = true -> exists b s, w = VStr b s /\ lower s = s }.

(** [k] states the sizes that the dimensions have without it *)
Definition agrees (cv : convention) (k : string) (o' o : sofa) : Prop :=
  forall c a n, In (c, a) (states cv o' k) -> has_char c "CIS" = false -> size cv o (str1 c) n -> a = Some n.

(** no other entry and no rule uses the size of the dimension [c] *)
Definition unused (E : env) (cv : convention) (o : sofa) (k : string) (c : ascii) : Prop :=
  (forall j e d alt x, j <> k -> In j (variables cv o) -> declared cv o j = Some e -> e_dims e = Some d ->
     In alt (alternatives d) -> has_char x alt = true -> upper_char x <> c)
  /\ (forall j r sp s items d l, In (j, r) (rules E) -> r_specific r = Some sp -> In (s, items) sp ->
        In (d, DepDims l) items -> ~ In (str1 c) (map fst l)).

(** the sizes that [k] states are known without it, or nobody uses them *)
Definition dispensable (E : env) (cv : convention) (k : string) (o' o : sofa) : Prop :=
  agrees cv k o' o
  /\ forall c, In c (map fst (states cv o' k)) -> has_char c "CIS" = false ->
       unused E cv o' k c \/ exists n, size cv o (str1 c) n.

(** neither dimensions nor rules refer to the length of texts *)
Definition lengths_free (E : env) (cv : convention) (o : sofa) : Prop :=
  (forall j e d alt, declared cv o j = Some e -> e_dims e = Some d -> In alt (alternatives d) -> has_char "s" alt = false)
  /\ (forall j r sp s items d l, In (j, r) (rules E) -> r_specific r = Some sp -> In (s, items) sp ->
        In (d, DepDims l) items -> ~ In "S" (map fst l)).

(** the rule for the entry [j] of the object names [k] *)
Inductive requires (E : env) (o : sofa) (k : string) (j : string) : Prop :=
| req_general r g w : In (j, r) (rules E) -> python_name j <> k -> dget (python_name j) (pub o) = Some w ->
    In g (r_general r) -> python_name g = k -> requires E o k j
| req_specific r sp b s items d ref : In (j, r) (rules E) -> python_name j <> k ->
    dget (python_name j) (pub o) = Some (VStr b s) -> r_specific r = Some sp ->
    dget (dep_case s) sp = Some items -> In (d, DepVal ref) items -> python_name d = k -> requires E o k j.

(** [k] can be spared: it is not mandatory, it is no custom variable with
    attributes (global attributes belong to no variable), and no rule names it *)
Record spare (E : env) (cv : convention) (o : sofa) (k : string) (e : entry) : Prop := {
  sp_optional : dget k cv <> None -> is_mandatory (e_flags e) = false;
  sp_bare : dget k cv = None -> startswith "GLOBAL" k = false -> forall a x, contained o (k +++ "_" +++ a) -> has_char "_" a = false ->
    declared cv o (k +++ "_" +++ a) = Some x -> e_type x <> "attribute";
  sp_rules : forall j, ~ requires E o k j }.
