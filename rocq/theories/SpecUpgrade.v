(** Specifications for upgrade_convention. *)
From Verif Require Import Base PyStr PyNum NdArray Sofa Verify Upgrade SpecInit.
Open Scope string_scope.
Open Scope list_scope.

(** ** Elements of arrays *)

(** [idx] addresses an element of an array of shape [s] *)
Definition in_bounds (s idx : list nat) : Prop := Forall2 (fun i n => i < n) idx s.

(** the element of [a] at the index [idx] *)
Definition elem (a : arr) (idx : list nat) : option elt :=
  nth_error (a_data a) (ravel (a_shape a) idx).

(** ** Moving axes *)

(** [order] lists for each axis of the result the axis of the source: the axes
    [src] go to [dst], all others keep their order *)
Record axis_order (n : nat) (src dst order : list nat) : Prop := {
  ao_length : List.length order = n;
  ao_all : forall i, i < n -> In i order;
  ao_moved : forall k i j, nth_error src k = Some i -> nth_error dst k = Some j ->
    nth_error order j = Some i;
  ao_kept : forall j1 j2 i1 i2, j1 < j2 -> ~ In j1 dst -> ~ In j2 dst ->
    nth_error order j1 = Some i1 -> nth_error order j2 = Some i2 -> i1 < i2 }.

(** [b] contains the elements of [a] with permuted axes *)
Record permuted (a b : arr) (order : list nat) : Prop := {
  pe_kind : a_kind b = a_kind a;
  pe_shape : a_shape b = map (fun i => nth i (a_shape a) 0) order;
  pe_size : List.length (a_data b) = prod (a_shape b);
  pe_elem : forall idx, in_bounds (a_shape a) idx ->
    in_bounds (a_shape b) (map (fun i => nth i idx 0) order)
    /\ elem b (map (fun i => nth i idx 0) order) = elem a idx;
  pe_onto : forall idx', in_bounds (a_shape b) idx' ->
    exists idx, in_bounds (a_shape a) idx /\ idx' = map (fun i => nth i idx 0) order }.

(** the array of a value with trailing singleton axes appended until there are
    at least [n] axes *)
Definition array_of (v : value) (n : nat) (a : arr) : Prop :=
  (exists a0, v = VArr a0 /\ a = reshape a0 (a_shape a0 ++ repeat 1 (n - List.length (a_shape a0))))
  \/ (exists x, v = VScal x /\ a = reshape (scalar_arr x) (repeat 1 n)).

(** [w] is [v] with moved axes *)
Definition moved (ax : option (list nat * list nat)) (v w : value) : Prop :=
  match ax with
  | None => w = v
  | Some (src, dst) =>
      exists a b n order, array_of v n a /\ w = VArr b
        /\ (forall i, In i src \/ In i dst -> i < n)
        /\ axis_order (a_ndim a) src dst order /\ permuted a b order
  end.

(** ** Available upgrades *)

(** the rules offer the upgrades [targets] for the convention and version of the
    object; [id] names the changes *)
Definition offers (E : env) (o : sofa) (targets : list string) (id : string) : Prop :=
  exists b c b' v u pre fr post,
    dget "GLOBAL_SOFAConventions" (pub o) = Some (VStr b c)
    /\ dget "GLOBAL_SOFAConventionsVersion" (pub o) = Some (VStr b' v)
    /\ dget c (upgrades E) = Some u
    /\ u_from_to u = pre ++ (fr, targets, id) :: post
    /\ In v fr /\ (forall x, In x pre -> ~ In v (fst (fst x))).

(** the changes for an offered upgrade *)
Definition changes (E : env) (o : sofa) (id : string) (sp : upgrade_spec) : Prop :=
  exists b c u, dget "GLOBAL_SOFAConventions" (pub o) = Some (VStr b c)
    /\ dget c (upgrades E) = Some u /\ dget id (u_specs u) = Some sp.

Definition sources (sp : upgrade_spec) : list string := map (fun sm => python_name (fst sm)) (u_move sp).
Definition targets_of (sp : upgrade_spec) : list string :=
  map (fun sm => python_name (mv_target (snd sm))) (u_move sp).
Definition removals (sp : upgrade_spec) : list string := map python_name (u_remove sp).

(** entries that are set to the values of the target convention *)
Definition stated_keys : list string :=
  ["GLOBAL_SOFAConventions"; "GLOBAL_SOFAConventionsVersion"; "GLOBAL_Version"; "GLOBAL_DataType"].

(** rules that name every entry once *)
Record changes_tidy (sp : upgrade_spec) : Prop := {
  ct_sources : NoDup (sources sp);
  ct_targets : NoDup (targets_of sp);
  ct_cross : forall i j s t, nth_error (sources sp) i = Some s -> nth_error (targets_of sp) j = Some t ->
    s = t -> i = j;
  ct_removed : forall k, In k (removals sp) -> ~ In k (targets_of sp);
  ct_stated : forall k, In k stated_keys ->
    ~ In k (sources sp) /\ ~ In k (targets_of sp) /\ ~ In k (removals sp);
  ct_protected : ~ In "protected" (targets_of sp) }.

(** stored values: strings, numbers, arrays with as many elements as given by
    the shape *)
Definition plain_value (v : value) : Prop :=
  match v with
  | VStr _ _ => True
  | VScal x => elt_kind x <> KU
  | VArr a => wf_arr a = true
  | VList _ => False
  end.
Definition plain (o : sofa) : Prop := forall k v, dget k (pub o) = Some v -> plain_value v.

(** ** The data after an upgrade to the convention [cv]: [p] before, [p'] after *)
Record upgraded (cv : convention) (sp : upgrade_spec) (p p' : dict value) : Prop := {
  (* convention, version, SOFA version and data type of the target *)
  up_stated : forall k, In k stated_keys ->
    exists e w, dget k cv = Some e /\ added_default e w /\ dget k p' = Some w;
  (* moved data *)
  up_moved : forall s m, In (s, m) (u_move sp) ->
    exists v w, dget (python_name s) p = Some v /\ moved (mv_axis m) v w
      /\ dget (python_name (mv_target m)) p' = Some w;
  (* all other data are kept *)
  up_kept : forall k v, dget k p = Some v -> ~ In k stated_keys -> ~ In k (sources sp) ->
    ~ In k (targets_of sp) -> ~ In k (removals sp) -> dget k p' = Some v;
  (* everything to be removed was contained *)
  up_removed : forall k, In k (removals sp) -> exists v, dget k p = Some v;
  (* nothing is added but mandatory data with their default; sources and removed
     data are gone unless mandatory in the target *)
  up_added : forall k w, dget k p' = Some w -> ~ In k stated_keys -> ~ In k (targets_of sp) ->
    (dget k p = Some w /\ ~ In k (sources sp) /\ ~ In k (removals sp))
    \/ exists e, dget k cv = Some e /\ is_mandatory (e_flags e) = true /\ added_default e w;
  (* all mandatory data are contained *)
  up_complete : forall k e, dget k cv = Some e -> is_mandatory (e_flags e) = true ->
    exists w, dget k p' = Some w }.

(** ** Changes that can be applied to the data [p] *)
Definition movable (ax : option (list nat * list nat)) (v : value) : Prop :=
  match ax with
  | None => True
  | Some (src, dst) =>
      match v with VArr _ => True | VScal x => x <> EObj | _ => False end
      /\ NoDup src /\ NoDup dst /\ List.length src = List.length dst
  end.

Record changes_possible (sp : upgrade_spec) (p : dict value) : Prop := {
  cp_move : forall s m, In (s, m) (u_move sp) ->
    is_private (python_name s) = false /\ clean_key (python_name (mv_target m))
    /\ exists v, dget (python_name s) p = Some v /\ plain_value v /\ movable (mv_axis m) v;
  cp_remove : forall k, In k (removals sp) -> is_private k = false /\ (exists v, dget k p = Some v)
    /\ ~ In k (sources sp);
  cp_once : NoDup (removals sp) }.
