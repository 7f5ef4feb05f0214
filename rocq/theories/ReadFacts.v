(** Lemmas about reading files. *)
From Verif Require Import Base PyStr PyNum NdArray Sofa Verify Utils Io
  SpecAttr SpecInit SpecValue SpecVerify SpecEquals SpecIo
  BaseFacts StrFacts AttrFacts OpFacts InitFacts ProtFacts AddDelFacts MissingFacts CoreFacts DictFacts DimFacts
  UpgradeFacts EqualsFacts WriteFacts.
From Coq Require Import ZArith Lia.
Open Scope string_scope.
Open Scope list_scope.
Open Scope nat_scope.

(** ** Entries *)

(** name, stored value, dimensions and type of an entry *)
Definition item := (string * value * option string * string)%type.
Definition i_name (i : item) : string := fst (fst (fst i)).
Definition i_value (i : item) : value := snd (fst (fst i)).
Definition i_dims (i : item) : option string := snd (fst i).
Definition i_type (i : item) : string := snd i.

Definition item_entry (i : item) : entry :=
  Entry None (option_map (smap custom_dim_char) (i_dims i)) (i_type i) (VScal EObj) (Some "").

(** the object after an entry has been read *)
Definition entered (i : item) (o : sofa) : sofa :=
  let new := negb (hasattr o (i_name i)) && negb (dmem (i_name i) (conv o)) in
  Sofa (dset (i_name i) (i_value i) (pub o))
       (if new then dset (i_name i) (item_entry i) (conv o) else conv o)
       (if new then Some (dset (i_name i) (item_entry i) (match custom o with Some c => c | None => [] end)) else custom o)
       (ro o) false (dims o) (api o).
Definition enter1 (st : sofa * names) (i : item) : sofa * names :=
  (entered i (fst st),
   (fst (snd st) ++ [i_name i],
    if hasattr (fst st) (i_name i) then snd (snd st) else snd (snd st) ++ [i_name i])).
Definition enter (its : list item) (st : sofa * names) : sofa * names := fold_left enter1 its st.

Lemma enter_app a b st : enter (a ++ b) st = enter b (enter a st).
Proof. apply fold_left_app. Qed.

Lemma clean_set_attr name v o w : prot o = false -> clean_key name -> normalize v = Ok w ->
  set_attr name v o = (with_pub o (dset name w (pub o)), [], Ok tt).
Proof.
  intros P [C1 [C2 C3]] NV. unfold set_attr. rewrite C1, (eqb_neq_s _ _ C2), P, andb_false_r. cbn [orb andb].
  rewrite (eqb_neq_s _ _ C3), NV. reflexivity.
Qed.

Lemma set_attr_clean name v o o' ev u : set_attr name v o = (o', ev, Ok u) ->
  (name = "protected" -> forall b, v <> VScal (EBool b)) ->
  clean_key name /\ exists w, normalize v = Ok w.
Proof.
  unfold set_attr. intros H NP. destruct (is_private name) eqn:P; [discriminate|].
  destruct (String.eqb_spec name "list_dimensions") as [->|N1]; [discriminate|]. cbn [orb] in H.
  destruct (prot o && negb (hasattr o name)); [discriminate|].
  destruct (in_ro name (ro o) && prot o); [discriminate|].
  destruct (String.eqb_spec name "protected") as [->|N2].
  - exfalso. destruct v as [| e | |]; try discriminate. destruct e; try discriminate. eapply NP; reflexivity.
  - split; [split; [exact P|auto]|]. destruct (normalize v); [eauto|discriminate].
Qed.

Lemma with_prot_self o : prot o = false -> with_prot o false = o.
Proof. destruct o; cbn. intros ->. reflexivity. Qed.

Lemma read_entry_eq name v d t n o w : prot o = false -> clean_key name -> normalize v = Ok w ->
  read_entry name v d t n o
  = (fst (enter1 (o, n) (name, w, d, t)), [], Ok (snd (enter1 (o, n) (name, w, d, t)))).
Proof.
  intros P C NV. unfold read_entry. rewrite bind_get. destruct (hasattr o name) eqn:HA.
  - rewrite (bind_silent _ _ _ _ _ (clean_set_attr name v o w P C NV)). unfold ret, enter1, entered, i_name, i_value.
    cbn [fst snd]. rewrite HA. cbn [negb andb]. unfold with_pub. rewrite P. reflexivity.
  - unfold add_custom_api_entry.
    assert (A : (do_ set_protected false;
      do_ modify (fun o0 => if dmem name (conv o0) then o0
        else with_conv (with_custom o0 (Some (dset name
          (Entry None (option_map (smap custom_dim_char) d) t (VScal EObj) (Some ""))
          (match custom o0 with Some c => c | None => [] end))))
          (dset name (Entry None (option_map (smap custom_dim_char) d) t (VScal EObj) (Some "")) (conv o0)));
      do_ set_attr name v; set_protected true) o
      = (with_prot (entered (name, w, d, t) o) true, [], Ok tt)).
    { unfold set_protected at 1. rewrite bind_modify, bind_modify.
      unfold entered, i_name, i_value, item_entry, i_dims, i_type. cbn [fst snd]. rewrite HA. cbn [negb andb].
      destruct (dmem name (conv o)) eqn:DM.
      - replace (dmem name (conv (with_prot o false))) with true.
        rewrite (bind_silent _ _ _ _ _ (clean_set_attr name v (with_prot o false) w eq_refl C NV)). reflexivity.
      - replace (dmem name (conv (with_prot o false))) with false.
        erewrite bind_silent; [|apply clean_set_attr; [reflexivity|exact C|exact NV]]. reflexivity. }
    rewrite (bind_silent _ _ _ _ _ A). unfold set_protected. rewrite bind_modify. unfold ret, enter1. cbn [fst snd i_name].
    rewrite HA. unfold entered. cbn. reflexivity.
Qed.

Lemma read_entry_Ok name v d t n o o' ev n' : prot o = false ->
  (name = "protected" -> forall b, v <> VScal (EBool b)) ->
  read_entry name v d t n o = (o', ev, Ok n') ->
  clean_key name /\ exists w, normalize v = Ok w /\ (o', n') = enter1 (o, n) (name, w, d, t) /\ ev = [].
Proof.
  intros P NP H.
  assert (X : clean_key name /\ exists w, normalize v = Ok w).
  { assert (H' := H). unfold read_entry in H'. rewrite bind_get in H'. destruct (hasattr o name).
    - apply bind_Ok in H'. destruct H' as [o1 [e1 [u [e2 [H1 _]]]]]. eapply set_attr_clean; [exact H1|exact NP].
    - apply bind_Ok in H'. destruct H' as [o1 [e1 [u [e2 [H1 _]]]]]. unfold add_custom_api_entry in H1.
      apply bind_Ok in H1. destruct H1 as [o2 [e3 [u2 [e4 [_ [H1 _]]]]]].
      apply bind_Ok in H1. destruct H1 as [o3 [e5 [u3 [e6 [_ [H1 _]]]]]].
      apply bind_Ok in H1. destruct H1 as [o4 [e7 [u4 [e8 [H1 _]]]]]. eapply set_attr_clean; [exact H1|exact NP]. }
  destruct X as [C [w NV]]. split; [exact C|]. exists w. rewrite (read_entry_eq name v d t n o w P C NV) in H.
  injection H as H1 H2 H3. split; [exact NV|]. split; [|congruence].
  rewrite <- H1, <- H3. reflexivity.
Qed.

Lemma enter1_prot st i : prot (fst (enter1 st i)) = false.
Proof. reflexivity. Qed.
Lemma enter_prot its : forall st, prot (fst st) = false -> prot (fst (enter its st)) = false.
Proof. induction its as [|i its IH]; intros st P; [exact P|]. cbn. apply IH. reflexivity. Qed.

(** ** The entries of a file *)
Definition attr_item (name : string) (v : value) : res item :=
  let? w := normalize v in Ok (name, w, None, "attribute").
Definition var_type (x : ncvar) : string := match nv_data x with DChar _ => "string" | _ => "double" end.
Definition kept_attrs (x : ncvar) : dict value :=
  filter (fun b => negb (String.eqb (fst b) "_Encoding")) (nv_attrs x).
Definition vattr_items (n : string) (x : ncvar) : res (list item) :=
  rmap (fun b => attr_item (sofa_name n +++ "_" +++ fst b) (snd b)) (kept_attrs x).
Definition var_items (nx : string * ncvar) : res (list item) :=
  let? v := snd (format_from_netcdf (fst nx) (snd nx)) in
  let? w := normalize v in
  let? l := vattr_items (fst nx) (snd nx) in
  Ok ((sofa_name (fst nx), w, Some (join "" (nv_dims (snd nx))), var_type (snd nx)) :: l).
Definition gattr_items (f : ncfile) : res (list item) :=
  rmap (fun b => attr_item ("GLOBAL_" +++ fst b) (snd b)) (nf_attrs f).
Definition file_items (f : ncfile) : res (list item) :=
  let? g := gattr_items f in
  let? l := rmap var_items (nf_vars f) in
  Ok (g ++ List.concat l).

(** names that the library gives access to *)
Definition accessible (f : ncfile) : Prop :=
  (forall a, In a (dkeys (nf_attrs f)) -> ~ In a dataset_members)
  /\ forall n x, In (n, x) (nf_vars f) ->
       (forall a, In a (dkeys (nv_attrs x)) -> ~ In a special_attrs)
       /\ forall a, In a (dkeys (kept_attrs x)) -> ~ In a variable_members.

(** warnings *)
Definition var_events (nx : string * ncvar) : list event := fst (format_from_netcdf (fst nx) (snd nx)).

Definition attr_loop (mem : list string) (nm : string -> string) (l : dict value) (n : names) : M names :=
  mfold (fun b n => do w <- lift (read_attr mem (fst b) (snd b));
                    read_entry (nm (fst b)) w None "attribute" n) l n.

Lemma attr_loop_Ok mem nm l : (forall a, nm a <> "protected") -> forall n o o' ev n', prot o = false ->
  attr_loop mem nm l n o = (o', ev, Ok n') ->
  exists its, rmap (fun b => attr_item (nm (fst b)) (snd b)) l = Ok its
    /\ (o', n') = enter its (o, n) /\ ev = []
    /\ (forall a, In a (dkeys l) -> ~ In a mem) /\ (forall i, In i its -> clean_key (i_name i)).
Proof.
  intro NP. induction l as [|[a v] l IH]; intros n o o' ev n' P H; unfold attr_loop in H; cbn [mfold] in H.
  - inversion H; subst. exists []. cbn. split; [reflexivity|]; split; [reflexivity|]; split; [reflexivity|]; split; intros ? [].
  - apply bind_Ok in H. destruct H as [o1 [e1 [n1 [e2 [H1 [H2 ->]]]]]]. cbn [fst snd] in H1.
    apply bind_Ok in H1. destruct H1 as [o0 [e3 [w [e4 [H3 [H4 ->]]]]]].
    unfold lift in H3. inversion H3; subst o0 e3. clear H3.
    unfold read_attr in *. destruct (smem a mem) eqn:SM; [discriminate|].
    match goal with X : Ok v = Ok w |- _ => inversion X; subst w end.
    apply read_entry_Ok in H4; [|exact P|intro Q; destruct (NP a Q)].
    destruct H4 as [C [w [NV [EQ ->]]]].
    fold (attr_loop mem nm l n1) in H2.
    assert (P1 : prot o1 = false) by (injection EQ as -> _; reflexivity).
    destruct (IH n1 o1 o' e2 n' P1 H2) as [its [I1 [I2 [I3 [I4 I5]]]]].
    exists ((nm a, w, None, "attribute") :: its). cbn [rmap fst snd]. unfold attr_item at 1. rewrite NV. cbn [rbind].
    rewrite I1. split; [reflexivity|]. split; [cbn [enter fold_left]; fold (enter its); rewrite <- EQ; exact I2|].
    split; [exact I3|]. split.
    + intros b [<-|IB]; [apply smem_false; exact SM|auto].
    + intros i [<-|II]; [exact C|auto].
Qed.

Lemma attr_loop_eq mem nm l its : rmap (fun b => attr_item (nm (fst b)) (snd b)) l = Ok its ->
  (forall a, In a (dkeys l) -> ~ In a mem) -> (forall i, In i its -> clean_key (i_name i)) ->
  forall n o, prot o = false ->
  attr_loop mem nm l n o = (fst (enter its (o, n)), [], Ok (snd (enter its (o, n)))).
Proof.
  revert its. induction l as [|[a v] l IH]; intros its R AC CL n o P.
  - cbn in R. inversion R; subst. reflexivity.
  - cbn [rmap fst snd] in R. apply rbind_Ok in R. destruct R as [i [R1 R]]. apply rbind_Ok in R.
    destruct R as [its' [R2 R]]. inversion R; subst its. clear R.
    unfold attr_item in R1. apply rbind_Ok in R1. destruct R1 as [w [NV R1]]. inversion R1; subst i. clear R1.
    unfold attr_loop. cbn [mfold fst snd].
    assert (SM : smem a mem = false) by (apply smem_false; apply AC; left; reflexivity).
    unfold read_attr at 1. rewrite SM.
    erewrite bind_silent.
    2:{ rewrite bind_lift. apply read_entry_eq; [exact P|apply (CL (nm a, w, None, "attribute")); left; reflexivity|exact NV]. }
    match goal with |- context [mfold ?f l ?n0] => change (mfold f l n0) with (attr_loop mem nm l n0) end.
    cbn [enter fold_left]. fold (enter its').
    rewrite (IH its' R2); [|intros b IB; apply AC; right; exact IB|intros i II; apply CL; right; exact II|reflexivity].
    destruct (enter1 (o, n) (nm a, w, None, "attribute")) as [o1 n1]. reflexivity.
Qed.

Lemma emit_all ev : forall o, mfor ev emit o = (o, ev, Ok tt).
Proof.
  induction ev as [|e ev IH]; intro o; [reflexivity|]. cbn [mfor].
  rewrite (bind_does _ _ _ _ _ _ (eq_refl : emit e o = (o, [e], Ok tt))). rewrite IH. reflexivity.
Qed.

(** elements of variables: missing or as in the file *)
Lemma read_elt_cases fill e : read_elt fill e = EObj \/ read_elt fill e = e.
Proof. unfold read_elt. destruct fill as [f|]; [destruct (elt_eqb f e)|]; auto. Qed.
Lemma read_elts fill d : Forall2 (element_read fill) d (map (read_elt fill) d).
Proof.
  induction d as [|e d IH]; constructor; [|exact IH]. unfold element_read, read_elt. destruct fill as [f|].
  - destruct (elt_eqb f e) eqn:Q; [left|right]; (split; [|reflexivity]); [exists f; auto|]. intros g G. injection G as <-. exact Q.
  - right. split; [discriminate|reflexivity].
Qed.
Definition any_missing (fill : option elt) (d : list elt) : bool :=
  match fill with Some e => existsb (elt_eqb e) d | None => false end.
Lemma read_elts_none fill d : any_missing fill d = false -> map (read_elt fill) d = d.
Proof.
  unfold any_missing, read_elt. destruct fill as [f|]; intro H; [|apply map_id]. induction d as [|e d IH]; [reflexivity|].
  cbn [existsb] in H. apply orb_false_iff in H. destruct H as [H1 H2]. cbn [map]. rewrite H1, (IH H2). reflexivity.
Qed.
Lemma read_elts_kind fill d k : (forall e, In e d -> elt_kind e = k) ->
  forall e, In e (map (read_elt fill) d) -> elt_kind e = k \/ (any_missing fill d = true /\ e = EObj).
Proof.
  intros H e I. apply in_map_iff in I. destruct I as [x [<- I]]. unfold read_elt, any_missing. destruct fill as [f|]; [|left; apply H, I].
  destruct (elt_eqb f x) eqn:Q; [right|left; apply H, I]. split; [|reflexivity]. apply existsb_exists. exists x. auto.
Qed.

(** values of variables are not Boolean *)
Lemma var_not_bool n x v : var_wf x -> snd (format_from_netcdf n x) = Ok v -> forall b, v <> VScal (EBool b).
Proof.
  intros WF H b ->. unfold format_from_netcdf in H. unfold var_wf in WF. destruct (nv_data x) as [k fill d|s|]; cbn [snd] in H.
  - destruct WF as [K [_ EK]]. destruct (_ && _); [|discriminate]. unfold first_item in H. cbn [a_shape a_data a_mask] in H.
    destruct (nv_shape x) as [|m [|]]; try discriminate. destruct d as [|e [|]]; cbn [map] in H; try discriminate.
    destruct (match fill with Some _ => _ | None => _ end); [discriminate|].
    assert (KE := EK e (or_introl eq_refl)).
    destruct (read_elt_cases fill e) as [R|R]; rewrite R in H; [discriminate H|].
    unfold scalar_value in H. destruct e; cbn in KE; inversion H; subst. destruct K; congruence.
  - apply rbind_Ok in H. destruct H as [a [H1 H2]].
    assert (KU' : forall e, In e (a_data a) -> exists u, e = EStr u).
    { unfold chartostring in H1. destruct (rev (nv_shape x)) as [|n' r]; [discriminate|]. destruct (n' =? 0); [discriminate|].
      destruct (forallb is_ascii (chars s)); [|discriminate]. inversion H1; subst. cbn [a_data]. intros e I.
      apply in_map_iff in I. destruct I as [u [<- _]]. eauto. }
    destruct (_ && _); [|discriminate]. unfold first_item in H2. cbn [reshape a_shape a_data a_mask] in H2.
    destruct (sh_atleast_1d (a_shape a)) as [|m [|]]; try discriminate. destruct (a_data a) as [|e [|]]; try discriminate.
    destruct (a_mask a); [discriminate|]. destruct (KU' e (or_introl eq_refl)) as [u ->]. discriminate.
  - discriminate.
Qed.

Lemma no_protected a : "GLOBAL_" +++ a <> "protected".
Proof. discriminate. Qed.
Lemma no_protected_ n a : n +++ "_" +++ a <> "protected".
Proof.
  intro H. assert (X : has_char "_" (n +++ "_" +++ a) = true) by (rewrite has_char_app; cbn; apply orb_true_r).
  rewrite H in X. discriminate.
Qed.

Lemma read_var_Ok nx n o o' ev n' : var_wf (snd nx) -> prot o = false ->
  read_var nx n o = (o', ev, Ok n') ->
  exists its, var_items nx = Ok its /\ (o', n') = enter its (o, n) /\ ev = var_events nx
    /\ (forall a, In a (dkeys (nv_attrs (snd nx))) -> ~ In a special_attrs)
    /\ (forall a, In a (dkeys (kept_attrs (snd nx))) -> ~ In a variable_members)
    /\ (forall i, In i its -> clean_key (i_name i)).
Proof.
  destruct nx as [var x]. cbn [snd]. intros WF P H. unfold read_var in H.
  destruct (existsb _ (dkeys (nv_attrs x))) eqn:SP; [discriminate|].
  assert (SP' : forall a, In a (dkeys (nv_attrs x)) -> ~ In a special_attrs).
  { intros a IA. apply smem_false. destruct (smem a special_attrs) eqn:Q; [|reflexivity].
    assert (X : existsb (fun k => smem k special_attrs) (dkeys (nv_attrs x)) = true) by (apply existsb_exists; eauto).
    congruence. }
  destruct (format_from_netcdf var x) as [ev0 r] eqn:FM.
  apply bind_Ok in H. destruct H as [o1 [e1 [u [e2 [H1 [H ->]]]]]]. rewrite emit_all in H1. inversion H1; subst o1 e1 u. clear H1.
  apply bind_Ok in H. destruct H as [o1 [e1 [v [e3 [H1 [H ->]]]]]]. unfold lift in H1. inversion H1; subst o1 e1 r. clear H1.
  apply bind_Ok in H. destruct H as [o1 [e4 [n1 [e5 [H1 [H ->]]]]]].
  apply read_entry_Ok in H1; [|exact P|]; [|intros _; apply (var_not_bool var x v WF); rewrite FM; reflexivity].
  destruct H1 as [C [w [NV [EQ ->]]]].
  assert (P1 : prot o1 = false) by (injection EQ as -> _; reflexivity).
  apply (attr_loop_Ok variable_members (fun a => sofa_name var +++ "_" +++ a) (kept_attrs x)) in H; [|apply no_protected_|exact P1].
  destruct H as [its [I1 [I2 [-> [I4 I5]]]]].
  eexists. unfold var_items, var_events. cbn [fst snd]. rewrite FM. cbn [fst snd rbind]. rewrite NV. cbn [rbind].
  unfold vattr_items. rewrite I1. cbn [rbind]. split; [reflexivity|].
  split; [cbn [enter fold_left]; fold (enter its); unfold var_type; rewrite <- EQ; exact I2|].
  split; [cbn; rewrite !app_nil_r; reflexivity|]. split; [exact SP'|]. split; [exact I4|].
  intros i [<-|II]; [exact C|auto].
Qed.

Lemma read_var_eq nx its n o : var_items nx = Ok its -> prot o = false ->
  (forall a, In a (dkeys (nv_attrs (snd nx))) -> ~ In a special_attrs) ->
  (forall a, In a (dkeys (kept_attrs (snd nx))) -> ~ In a variable_members) ->
  (forall i, In i its -> clean_key (i_name i)) ->
  read_var nx n o = (fst (enter its (o, n)), var_events nx, Ok (snd (enter its (o, n)))).
Proof.
  destruct nx as [var x]. cbn [snd]. intros VI P SP VM CL. unfold read_var.
  replace (existsb (fun k => smem k special_attrs) (dkeys (nv_attrs x))) with false.
  2:{ symmetry. apply not_true_is_false. intro Q. apply existsb_exists in Q. destruct Q as [a [IA Q]].
      apply smem_In in Q. exact (SP a IA Q). }
  unfold var_items, var_events in *. cbn [fst snd] in *. destruct (format_from_netcdf var x) as [ev r]. cbn [fst snd] in *.
  apply rbind_Ok in VI. destruct VI as [v [-> VI]]. apply rbind_Ok in VI. destruct VI as [w [NV VI]].
  apply rbind_Ok in VI. destruct VI as [l [VL VI]]. inversion VI; subst its. clear VI.
  rewrite (bind_does _ _ _ _ _ _ (emit_all ev o)). rewrite bind_lift.
  erewrite bind_silent.
  2:{ apply read_entry_eq; [exact P|apply (CL (sofa_name var, w, Some (join "" (nv_dims x)), var_type x)); left; reflexivity|exact NV]. }
  match goal with |- context [mfold ?f ?l0 ?n0] =>
    change (mfold f l0 n0) with (attr_loop variable_members (fun a => sofa_name var +++ "_" +++ a) (kept_attrs x) n0) end.
  rewrite (attr_loop_eq variable_members (fun a => sofa_name var +++ "_" +++ a) (kept_attrs x) l VL VM);
    [|intros i II; apply CL; right; exact II|reflexivity].
  unfold m_obj, m_out, m_res. cbn [fst snd]. rewrite app_nil_r. cbn [enter fold_left]. fold (enter l).
  rewrite <- surjective_pairing. reflexivity.
Qed.

Lemma read_vars_Ok l : forall n o o' ev n', (forall nx, In nx l -> var_wf (snd nx)) -> prot o = false ->
  mfold read_var l n o = (o', ev, Ok n') ->
  exists its, rmap var_items l = Ok its /\ (o', n') = enter (List.concat its) (o, n) /\ ev = flat_map var_events l
    /\ (forall nx, In nx l ->
          (forall a, In a (dkeys (nv_attrs (snd nx))) -> ~ In a special_attrs)
          /\ (forall a, In a (dkeys (kept_attrs (snd nx))) -> ~ In a variable_members))
    /\ (forall i, In i (List.concat its) -> clean_key (i_name i)).
Proof.
  induction l as [|nx l IH]; intros n o o' ev n' WF P H; cbn [mfold] in H.
  - inversion H; subst. exists []. cbn. split; [reflexivity|]; split; [reflexivity|]; split; [reflexivity|]; split; intros ? [].
  - apply bind_Ok in H. destruct H as [o1 [e1 [n1 [e2 [H1 [H2 ->]]]]]].
    apply read_var_Ok in H1; [|apply WF; left; reflexivity|exact P].
    destruct H1 as [its1 [A1 [A2 [-> [A3 [A4 A5]]]]]].
    assert (P1 : prot o1 = false).
    { change (prot (fst (o1, n1)) = false). rewrite A2. apply enter_prot. exact P. }
    destruct (IH n1 o1 o' e2 n' (fun nx I => WF nx (or_intror I)) P1 H2) as [its [B1 [B2 [-> [B4 B5]]]]].
    exists (its1 :: its). cbn [rmap List.concat flat_map]. rewrite A1, B1. cbn [rbind]. split; [reflexivity|].
    split; [rewrite enter_app, <- A2; exact B2|]. split; [reflexivity|]. split.
    + intros y [<-|I]; [auto|apply B4; exact I].
    + intros i I. apply in_app_or in I. destruct I; auto.
Qed.

Lemma read_vars_eq l : forall its n o, rmap var_items l = Ok its -> prot o = false ->
  (forall nx, In nx l ->
          (forall a, In a (dkeys (nv_attrs (snd nx))) -> ~ In a special_attrs)
          /\ (forall a, In a (dkeys (kept_attrs (snd nx))) -> ~ In a variable_members)) ->
  (forall i, In i (List.concat its) -> clean_key (i_name i)) ->
  mfold read_var l n o = (fst (enter (List.concat its) (o, n)), flat_map var_events l, Ok (snd (enter (List.concat its) (o, n)))).
Proof.
  induction l as [|nx l IH]; intros its n o R P AC CL; cbn [mfold rmap] in *.
  - inversion R; subst. reflexivity.
  - apply rbind_Ok in R. destruct R as [i1 [R1 R]]. apply rbind_Ok in R. destruct R as [its' [R2 R]]. inversion R; subst its.
    cbn [List.concat] in *. destruct (AC nx (or_introl eq_refl)) as [A1 A2].
    rewrite (bind_does _ _ _ _ _ _ (read_var_eq nx i1 n o R1 P A1 A2 (fun i I => CL i (in_or_app _ _ _ (or_introl I))))).
    rewrite (IH its'); [|exact R2|apply enter_prot; exact P|intros y I; apply AC; right; exact I
                        |intros i I; apply CL; apply in_or_app; right; exact I].
    unfold m_obj, m_out, m_res. cbn [fst snd flat_map]. rewrite enter_app, <- surjective_pairing. reflexivity.
Qed.

(** ** Removing what is not in the file *)
Definition left_over (ns : list string) (o : sofa) : sofa :=
  Sofa (filter (fun kv => smem (fst kv) ns) (pub o)) (conv o)
       (match custom o with
        | Some c => Some (fold_left (fun c k => ddel k c) (filter (fun k => negb (smem k ns)) (dkeys (pub o))) c)
        | None => None
        end) (ro o) true (dims o) (api o).

Lemma del_eq name o v : prot o = false -> is_private name = false -> dget name (pub o) = Some v ->
  del_attr name o = (with_custom (with_pub o (ddel name (pub o)))
                (match custom o with Some c => Some (ddel name c) | None => None end), [], Ok tt).
Proof.
  intros P PR G. unfold del_attr. rewrite PR, P.
  assert (D : dmem name (pub o) = true) by (unfold dmem; rewrite G; reflexivity).
  unfold hasattr. rewrite D. reflexivity.
Qed.

Lemma del_all l : forall o, prot o = false -> NoDup l -> (forall k, In k l -> In k (dkeys (pub o)) /\ is_private k = false) ->
  mfor l del_attr o = (Sofa (fold_left (fun c k => ddel k c) l (pub o)) (conv o)
       (match custom o with Some c => Some (fold_left (fun c k => ddel k c) l c) | None => None end)
       (ro o) false (dims o) (api o), [], Ok tt).
Proof.
  induction l as [|k l IH]; intros o P N HK; cbn [mfor fold_left].
  - destruct o as [p c cu r b d a]. cbn in *. subst b. destruct cu; reflexivity.
  - destruct (HK k (or_introl eq_refl)) as [I1 I2]. apply dget_Some_In in I1. destruct I1 as [v G]. inversion N; subst.
    rewrite (bind_silent _ _ _ _ _ (del_eq k o v P I2 G)). rewrite IH; auto.
    + cbn. destruct (custom o); reflexivity.
    + intros j IJ. destruct (HK j (or_intror IJ)) as [J1 J2]. split; [|exact J2]. cbn [pub with_custom with_pub].
      apply dget_Some_In in J1. destruct J1 as [w W]. apply dget_Some_In. exists w.
      rewrite dget_ddel_other; [exact W|]. intros ->. contradiction.
Qed.

Lemma ddel_all_filter {A} (l : list string) : forall d : dict A, NoDup (dkeys d) ->
  fold_left (fun c k => ddel k c) l d = filter (fun kv => negb (smem (fst kv) l)) d.
Proof.
  induction l as [|k l IH]; intros d N; cbn [fold_left].
  - symmetry. clear. induction d as [|[k v] d IHd]; [reflexivity|]. cbn [filter fst smem existsb negb].
    f_equal. exact IHd.
  - rewrite IH by (apply NoDup_ddel; exact N). rewrite (ddel_filter k d N). clear IH N.
    induction d as [|[j v] d IHd]; [reflexivity|]. cbn [filter fst smem existsb]. rewrite (String.eqb_sym j k).
    destruct (String.eqb k j); cbn [negb orb filter fst]; [exact IHd|]. unfold smem in *.
    destruct (existsb (String.eqb j) l); cbn [negb]; rewrite IHd; reflexivity.
Qed.

Lemma del_rest ns o : prot o = false -> NoDup (dkeys (pub o)) -> (forall k, In k (dkeys (pub o)) -> is_private k = false) ->
  (do_ mfor (filter (fun k => negb (smem k ns)) (dkeys (pub o))) del_attr; set_protected true) o
  = (left_over ns o, [], Ok tt).
Proof.
  intros P N PR. erewrite bind_silent.
  2:{ apply del_all; [exact P|apply NoDup_filter; exact N|]. intros k I. apply filter_In in I. destruct I as [I _]. auto. }
  unfold set_protected, modify, left_over, with_prot. cbn [pub conv custom ro dims api].
  rewrite (ddel_all_filter _ (pub o) N). do 3 f_equal.
  apply filter_ext_in. intros [k v] I. cbn [fst].
  assert (Q : smem k (filter (fun k0 => negb (smem k0 ns)) (dkeys (pub o))) = negb (smem k ns)).
  { destruct (smem k ns) eqn:S1; cbn [negb].
    - apply smem_false. intro X. apply filter_In in X. destruct X as [_ X]. rewrite S1 in X. discriminate.
    - apply smem_In. apply filter_In. split; [apply dget_Some_In; exists v; apply In_dget; assumption|]. rewrite S1. reflexivity. }
  rewrite Q, negb_involutive. reflexivity.
Qed.

Lemma dset_keys_dset {A} k (v : A) d j : In j (dkeys (dset k v d)) <-> j = k \/ In j (dkeys d).
Proof. rewrite In_dkeys_dset. intuition. Qed.

Lemma enter_keys its : forall st j, In j (dkeys (pub (fst (enter its st)))) <-> In j (map i_name its) \/ In j (dkeys (pub (fst st))).
Proof.
  induction its as [|i its IH]; intros st j; cbn [enter fold_left map].
  - cbn. tauto.
  - fold (enter its). rewrite IH. cbn [enter1 fst entered pub]. rewrite dset_keys_dset. cbn. intuition.
Qed.
Lemma enter_nodup its : forall st, NoDup (dkeys (pub (fst st))) -> NoDup (dkeys (pub (fst (enter its st)))).
Proof.
  induction its as [|i its IH]; intros st N; [exact N|]. cbn [enter fold_left]. fold (enter its). apply IH.
  cbn [enter1 fst entered pub]. apply NoDup_dset. exact N.
Qed.
Lemma enter_names its : forall st, fst (snd (enter its st)) = fst (snd st) ++ map i_name its.
Proof.
  induction its as [|i its IH]; intro st; cbn [enter fold_left map]; [symmetry; apply app_nil_r|].
  fold (enter its). rewrite IH. cbn [enter1 fst snd]. rewrite <- app_assoc. reflexivity.
Qed.

(** ** All data of a file *)
Definition start (o : sofa) : sofa * names := (with_prot o false, ([], [])).

Lemma read_content_Ok f o p ev cu : file_wf f -> NoDup (dkeys (pub o)) ->
  read_content f o = (p, ev, Ok cu) ->
  exists its, file_items f = Ok its /\ accessible f /\ (forall i, In i its -> clean_key (i_name i))
    /\ p = left_over (map i_name its) (fst (enter its (start o)))
    /\ cu = snd (snd (enter its (start o))) /\ ev = flat_map var_events (nf_vars f).
Proof.
  intros WF N H. unfold read_content, set_protected at 1 in H. rewrite bind_modify in H.
  apply bind_Ok in H. destruct H as [o1 [e1 [n1 [e2 [H1 [H ->]]]]]].
  apply (attr_loop_Ok dataset_members (fun a => "GLOBAL_" +++ a) (nf_attrs f)) in H1; [|intro a; apply no_protected|reflexivity].
  destruct H1 as [g [G1 [G2 [-> [G4 G5]]]]].
  assert (P1 : prot o1 = false) by (change (prot (fst (o1, n1)) = false); rewrite G2; apply enter_prot; reflexivity).
  apply bind_Ok in H. destruct H as [o2 [e3 [n2 [e4 [H2 [H ->]]]]]].
  apply read_vars_Ok in H2; [|intros [n x] I; apply (fw_vars _ WF n x I)|exact P1].
  destruct H2 as [vs [V1 [V2 [-> [V4 V5]]]]].
  rewrite G2 in V2. rewrite <- enter_app in V2.
  change ((o2, n2) = enter (g ++ List.concat vs) (start o)) in V2.
  assert (FI : file_items f = Ok (g ++ List.concat vs)).
  { unfold file_items, gattr_items. rewrite G1, V1. reflexivity. }
  assert (CL : forall i, In i (g ++ List.concat vs) -> clean_key (i_name i)).
  { intros i I. apply in_app_or in I. destruct I; auto. }
  exists (g ++ List.concat vs). split; [exact FI|].
  split; [split; [exact G4|intros n x I; apply (V4 (n, x) I)]|]. split; [exact CL|].
  rewrite bind_get in H. apply bind_Ok in H. destruct H as [o3 [e5 [u3 [e6 [H3 [H ->]]]]]].
  apply bind_Ok in H. destruct H as [o4 [e7 [u4 [e8 [H4 [H ->]]]]]]. inversion H; subst. clear H.
  inversion H4; subst. clear H4.
  assert (O2 : o2 = fst (enter (g ++ List.concat vs) (start o))) by (rewrite <- V2; reflexivity).
  assert (N2 : fst n2 = map i_name (g ++ List.concat vs)).
  { change (fst (snd (o2, n2)) = map i_name (g ++ List.concat vs)). rewrite V2, enter_names. reflexivity. }
  assert (NN : NoDup (dkeys (pub o2))).
  { rewrite O2. apply enter_nodup. exact N. }
  assert (P2 : prot o2 = false).
  { rewrite O2. apply enter_prot. reflexivity. }
  (* the names are public *)
  assert (X : (do_ mfor (filter (fun k => negb (smem k (fst n2))) (dkeys (pub o2))) del_attr; set_protected true) o2
              = (with_prot o3 true, e5, Ok tt)).
  { rewrite (bind_does _ _ _ _ _ _ H3). unfold m_obj, m_out, m_res. cbn. rewrite app_nil_r. reflexivity. }
  assert (X2 : o3 = Sofa (fold_left (fun c k => ddel k c) (filter (fun k => negb (smem k (fst n2))) (dkeys (pub o2))) (pub o2))
       (conv o2) (match custom o2 with Some c => Some (fold_left (fun c k => ddel k c) (filter (fun k => negb (smem k (fst n2))) (dkeys (pub o2))) c) | None => None end)
       (ro o2) false (dims o2) (api o2) /\ e5 = []).
  { clear - H3 P2. revert o2 P2 o3 e5 H3. generalize (fst n2). intros ns o2. generalize (filter (fun k => negb (smem k ns)) (dkeys (pub o2))).
    intro l. revert o2. induction l as [|k l IH]; intros o2 P2 o3 e5 H3; cbn [mfor] in H3.
    - inversion H3; subst. split; [|reflexivity]. destruct o3 as [p c cu r b d a]. cbn in *. subst b. destruct cu; reflexivity.
    - apply bind_Ok in H3. destruct H3 as [o4 [e1 [u [e2 [H1 [H2 ->]]]]]].
      destruct (del_attr_cases k o2) as [[e K]|[K1 [K2 [K3 K]]]]; [rewrite K in H1; discriminate|].
      rewrite K in H1. inversion H1; subst. apply IH in H2; [|exact P2]. destruct H2 as [-> ->]. split; [|reflexivity].
      cbn. destruct (custom o2); reflexivity. }
  destruct X2 as [X2 ->]. split; [|split; [change (snd n2) with (snd (snd (o2, n2))); rewrite V2; reflexivity|]].
  - rewrite <- O2, <- N2. rewrite X2. unfold with_prot, left_over. cbn [pub conv custom ro dims api].
    rewrite (ddel_all_filter _ (pub o2) NN). f_equal. apply filter_ext_in. intros [k v] I. cbn [fst].
    destruct (smem k (fst n2)) eqn:S1.
    + apply negb_true_iff. apply smem_false. intro Q. apply filter_In in Q. destruct Q as [_ Q]. rewrite S1 in Q. discriminate.
    + apply negb_false_iff. apply smem_In. apply filter_In. split; [apply dget_Some_In; exists v; apply In_dget; assumption|].
      rewrite S1. reflexivity.
  - cbn. rewrite app_nil_r. reflexivity.
Qed.

Lemma read_content_eq f o its : NoDup (dkeys (pub o)) -> (forall k, In k (dkeys (pub o)) -> is_private k = false) ->
  file_items f = Ok its -> accessible f -> (forall i, In i its -> clean_key (i_name i)) ->
  read_content f o = (left_over (map i_name its) (fst (enter its (start o))),
                      flat_map var_events (nf_vars f), Ok (snd (snd (enter its (start o))))).
Proof.
  intros N PR FI [A1 A2] CL. unfold file_items in FI. apply rbind_Ok in FI. destruct FI as [g [G FI]].
  apply rbind_Ok in FI. destruct FI as [vs [V FI]]. inversion FI; subst its. clear FI.
  unfold read_content, set_protected at 1. rewrite bind_modify.
  erewrite bind_silent.
  2:{ apply (attr_loop_eq dataset_members (fun a => "GLOBAL_" +++ a) (nf_attrs f) g G A1); [|reflexivity].
      intros i I. apply CL. apply in_or_app. auto. }
  assert (PG : prot (fst (enter g (start o))) = false) by (apply enter_prot; reflexivity).
  fold (start o).
  erewrite bind_does.
  2:{ apply (read_vars_eq (nf_vars f) vs); [exact V|exact PG|intros [n x] I; apply (A2 n x I)|].
      intros i I. apply CL. apply in_or_app. auto. }
  rewrite <- surjective_pairing, <- enter_app. rewrite bind_get.
  set (st := enter (g ++ List.concat vs) (start o)).
  assert (NS : fst (snd st) = map i_name (g ++ List.concat vs)) by (unfold st; rewrite enter_names; reflexivity).
  assert (DR := del_rest (map i_name (g ++ List.concat vs)) (fst st)).
  match goal with |- context [enter (g ++ List.concat vs) ?x] =>
    change (enter (g ++ List.concat vs) x) with st end.
  rewrite NS.
  assert (B : forall (m1 m2 : M unit) (r : list string) o0 o1, bind m1 (fun _ => m2) o0 = (o1, [], Ok tt) ->
              bind m1 (fun _ => bind m2 (fun _ => ret r)) o0 = (o1, [], Ok r)).
  { clear. intros m1 m2 r o0 o1 H. apply bind_Ok in H. destruct H as [o2 [e1 [u [e2 [H1 [H2 H3]]]]]].
    symmetry in H3. apply app_eq_nil in H3. destruct H3 as [-> ->].
    rewrite (bind_silent _ _ _ _ _ H1), (bind_silent _ _ _ _ _ H2). reflexivity. }
  rewrite (B _ _ (snd (snd st)) _ _ (DR (enter_prot _ (start o) eq_refl) (enter_nodup _ (start o) N)
     (fun k I => match proj1 (enter_keys _ (start o) k) I with
                 | or_introl J => match proj1 (in_map_iff _ _ _) J with
                                  | ex_intro _ i (conj Q II) => eq_ind (i_name i) (fun k => is_private k = false) (proj1 (CL i II)) k Q
                                  end
                 | or_intror J => PR k J
                 end))).
  unfold m_obj, m_out, m_res. cbn [fst snd]. rewrite app_nil_r. reflexivity.
Qed.

(** ** Entries after reading *)
Lemma enter_other its : forall st k, ~ In k (map i_name its) -> dget k (pub (fst (enter its st))) = dget k (pub (fst st)).
Proof.
  induction its as [|i its IH]; intros st k N; [reflexivity|]. cbn [enter fold_left]. fold (enter its).
  cbn in N. rewrite IH by tauto. cbn [enter1 fst entered pub]. apply dget_dset_other. intros ->. apply N. auto.
Qed.
Lemma enter_dget its : forall st i, NoDup (map i_name its) -> In i its ->
  dget (i_name i) (pub (fst (enter its st))) = Some (i_value i).
Proof.
  induction its as [|j its IH]; intros st i N I; [destruct I|]. cbn [map] in N. inversion N; subst.
  cbn [enter fold_left]. fold (enter its). destruct I as [->|I]; [|apply IH; assumption].
  rewrite enter_other by assumption. cbn [enter1 fst entered pub]. apply dget_dset_same.
Qed.

(** the last item with a name determines the value *)
Definition item_value (k : string) (its : list item) : option value :=
  fold_left (fun r i => if String.eqb k (i_name i) then Some (i_value i) else r) its None.
Lemma item_value_acc k its : forall r, fold_left (fun r i => if String.eqb k (i_name i) then Some (i_value i) else r) its r
  = match item_value k its with Some v => Some v | None => r end.
Proof.
  unfold item_value. induction its as [|i its IH]; intro r; [reflexivity|]. cbn [fold_left]. rewrite IH.
  rewrite (IH (if String.eqb k (i_name i) then Some (i_value i) else None)).
  destruct (fold_left _ its None); [reflexivity|]. destruct (String.eqb k (i_name i)); reflexivity.
Qed.
Lemma enter_value its : forall st k, dget k (pub (fst (enter its st)))
  = match item_value k its with Some v => Some v | None => dget k (pub (fst st)) end.
Proof.
  induction its as [|i its IH]; intros st k; [reflexivity|]. cbn [enter fold_left]. fold (enter its). rewrite IH.
  unfold item_value at 2. cbn [fold_left]. rewrite item_value_acc. destruct (item_value k its); [reflexivity|].
  cbn [enter1 fst entered pub]. rewrite dget_dset. destruct (String.eqb k (i_name i)); reflexivity.
Qed.
Lemma item_value_None k its : item_value k its = None <-> ~ In k (map i_name its).
Proof.
  induction its as [|i its IH]; [cbn; tauto|]. unfold item_value. cbn [fold_left map In]. rewrite item_value_acc.
  destruct (item_value k its) eqn:Q.
  - split; [discriminate|]. intro N. exfalso. apply N. right.
    destruct (in_dec string_dec k (map i_name its)) as [I|I]; [exact I|]. apply IH in I. discriminate.
  - destruct (String.eqb_spec k (i_name i)) as [->|NE].
    + split; [discriminate|]. intro N. exfalso. apply N. auto.
    + split; [|reflexivity]. intros _ [X|X]; [congruence|]. apply IH in X; [exact X|reflexivity].
Qed.

Lemma dget_filter {A} (f : string -> bool) (d : dict A) k :
  dget k (filter (fun kv => f (fst kv)) d) = if f k then dget k d else None.
Proof.
  induction d as [|[j v] d IH]; [destruct (f k); reflexivity|]. cbn [filter fst].
  destruct (f j) eqn:FJ; cbn [dget]; destruct (String.eqb_spec k j) as [EQ|NE]; try subst j; rewrite ?FJ; auto.
  rewrite IH, FJ. reflexivity.
Qed.

Lemma left_over_dget its o k : dget k (pub (left_over (map i_name its) (fst (enter its (start o))))) = item_value k its.
Proof.
  cbn [left_over pub]. rewrite (dget_filter (fun j => smem j (map i_name its))), enter_value.
  destruct (item_value k its) as [v|] eqn:Q.
  - replace (smem k (map i_name its)) with true; [reflexivity|]. symmetry. apply smem_In.
    destruct (in_dec string_dec k (map i_name its)) as [I|I]; [exact I|]. apply item_value_None in I. congruence.
  - apply item_value_None in Q. apply smem_false in Q. rewrite Q. reflexivity.
Qed.

Lemma item_value_In its i : NoDup (map i_name its) -> In i its -> item_value (i_name i) its = Some (i_value i).
Proof.
  intros N I. assert (X := enter_dget its (start empty_sofa) i N I). rewrite enter_value in X.
  destruct (item_value (i_name i) its); [exact X|discriminate].
Qed.

(** names of the items *)
Lemma sofa_name_undotted n : sofa_name n = undotted n.
Proof. unfold sofa_name, undotted. induction n as [|c n IH]; [reflexivity|]. cbn [replace_char smap]. rewrite IH. reflexivity. Qed.

Lemma rmap_names {A} (f : A -> res item) (g : A -> string) l its :
  (forall a i, In a l -> f a = Ok i -> i_name i = g a) -> rmap f l = Ok its -> map i_name its = map g l.
Proof.
  revert its. induction l as [|a l IH]; intros its H R; cbn [rmap] in R; [inversion R; reflexivity|].
  apply rbind_Ok in R. destruct R as [i [R1 R]]. apply rbind_Ok in R. destruct R as [r [R2 R]]. inversion R; subst. cbn [map].
  rewrite (H a i (or_introl eq_refl) R1), (IH r); [reflexivity| |exact R2]. intros b j I. apply H. right. exact I.
Qed.

Lemma attr_item_inv k v i : attr_item k v = Ok i -> i = (k, i_value i, None, "attribute") /\ normalize v = Ok (i_value i).
Proof. unfold attr_item. intro H. apply rbind_Ok in H. destruct H as [w [H1 H2]]. inversion H2; subst. auto. Qed.

Lemma kept_keys x : dkeys (kept_attrs x) = filter (fun a => negb (String.eqb a "_Encoding")) (dkeys (nv_attrs x)).
Proof.
  unfold kept_attrs, dkeys. induction (nv_attrs x) as [|[a v] l IH]; [reflexivity|]. cbn [filter map fst].
  destruct (negb (String.eqb a "_Encoding")); cbn [map fst]; rewrite IH; reflexivity.
Qed.

Lemma var_items_inv nx l : var_items nx = Ok l ->
  exists v w r, snd (format_from_netcdf (fst nx) (snd nx)) = Ok v /\ normalize v = Ok w
    /\ vattr_items (fst nx) (snd nx) = Ok r
    /\ l = (sofa_name (fst nx), w, Some (join "" (nv_dims (snd nx))), var_type (snd nx)) :: r.
Proof.
  unfold var_items. intro H. apply rbind_Ok in H. destruct H as [v [H1 H]]. apply rbind_Ok in H. destruct H as [w [H2 H]].
  apply rbind_Ok in H. destruct H as [r [H3 H]]. inversion H; subst. exists v, w, r. auto.
Qed.

Lemma vattr_names n x r : vattr_items n x = Ok r ->
  map i_name r = map (fun a => undotted n +++ "_" +++ a) (filter (fun a => negb (String.eqb a "_Encoding")) (dkeys (nv_attrs x))).
Proof.
  intro H. unfold vattr_items in H. rewrite (rmap_names _ (fun b => undotted n +++ "_" +++ fst b) _ _) with (2 := H).
  - rewrite <- kept_keys. unfold dkeys. rewrite map_map. reflexivity.
  - intros b i _ X. apply attr_item_inv in X. destruct X as [-> _]. rewrite <- sofa_name_undotted. reflexivity.
Qed.

Lemma file_items_inv f its : file_items f = Ok its ->
  exists g l, gattr_items f = Ok g /\ rmap var_items (nf_vars f) = Ok l /\ its = g ++ List.concat l.
Proof.
  unfold file_items. intro H. apply rbind_Ok in H. destruct H as [g [H1 H]]. apply rbind_Ok in H. destruct H as [l [H2 H]].
  inversion H; subst. eauto.
Qed.

Lemma items_names f its : file_items f = Ok its -> map i_name its = file_names f.
Proof.
  intro H. apply file_items_inv in H. destruct H as [g [l [H1 [H2 ->]]]]. rewrite map_app. unfold file_names. f_equal.
  - unfold gattr_items in H1. rewrite (rmap_names _ (fun b => "GLOBAL_" +++ fst b) _ _) with (2 := H1).
    + unfold dkeys. rewrite map_map. reflexivity.
    + intros b i _ X. apply attr_item_inv in X. destruct X as [-> _]. reflexivity.
  - revert l H2. induction (nf_vars f) as [|nx vs IH]; intros l H2; cbn [rmap] in H2; [inversion H2; reflexivity|].
    apply rbind_Ok in H2. destruct H2 as [i [H3 H2]]. apply rbind_Ok in H2. destruct H2 as [r [H4 H2]]. inversion H2; subst.
    cbn [List.concat flat_map]. rewrite map_app, (IH r H4). f_equal.
    apply var_items_inv in H3. destruct H3 as [v [w [q [_ [_ [H3 ->]]]]]]. cbn [map]. rewrite (vattr_names _ _ _ H3).
    rewrite <- sofa_name_undotted. reflexivity.
Qed.

(** ** Values *)
Lemma normalize_scal e : elt_kind e = KI \/ elt_kind e = KF -> normalize (VScal e) = Ok (VScal e).
Proof. destruct e; cbn; intros [|]; try discriminate; reflexivity. Qed.

Lemma texts_rect ss : ss <> [] -> rect [List.length ss] (VList (map (VStr false) ss)) (map EStr ss).
Proof.
  assert (A : forall l, rect_all [] (map (VStr false) l) (map EStr l)).
  { induction l as [|t l IH]; [constructor|]. cbn [map]. change (EStr t :: map EStr l) with ([EStr t] ++ map EStr l).
    constructor; [constructor|exact IH]. }
  intro NE. destruct ss as [|s ss]; [congruence|]. cbn [map List.length].
  change (EStr s :: map EStr ss) with ([EStr s] ++ map EStr ss).
  replace (S (List.length ss)) with (S (List.length (map (VStr false) ss))) by (rewrite map_length; reflexivity).
  constructor; [constructor|apply A].
Qed.

Lemma attr_value v : attr_wf v -> exists w, normalize v = Ok w /\ attr_held v w.
Proof.
  destruct v as [b s|e|a|l]; cbn [attr_wf]; intro WF.
  - eexists. split; reflexivity.
  - eexists. split; [apply normalize_scal; exact WF|reflexivity].
  - eexists. split; reflexivity.
  - destruct WF as [s [t [r ->]]].
    rewrite (normalize_rect [List.length (s :: t :: r)] _ (map EStr (s :: t :: r)) KU).
    + eexists. split; [reflexivity|]. cbn [attr_held]. exists (s :: t :: r). split; reflexivity.
    + apply texts_rect. discriminate.
    + intros e I. apply in_map_iff in I. destruct I as [u [<- _]]. reflexivity.
    + discriminate.
Qed.

Lemma normalize_held v w : attr_wf v -> normalize v = Ok w -> attr_held v w.
Proof. intros WF H. destruct (attr_value v WF) as [w' [H1 H2]]. congruence. Qed.

Lemma sdrop_add a : forall b t, sdrop (a + b) t = sdrop b (sdrop a t).
Proof. induction a as [|a IH]; intros b t; [reflexivity|]. destruct t; [destruct b; reflexivity|]. apply IH. Qed.

Lemma nth_pieces c n : forall t i u, nth_error (pieces c n t) i = Some u -> u = piece n i t.
Proof.
  induction c as [|c IH]; intros t i u H; [destruct i; discriminate|]. destruct i as [|i]; cbn [pieces nth_error] in H.
  - inversion H; subst. reflexivity.
  - apply IH in H. subst u. unfold piece. rewrite <- sdrop_add. f_equal. 
Qed.
Lemma pieces_length c n : forall t, List.length (pieces c n t) = c.
Proof. induction c as [|c IH]; intro t; [reflexivity|]. cbn. rewrite IH. reflexivity. Qed.

Lemma strip_nul_max s r : strip_nul s <> r +++ nuls 1.
Proof.
  intro H. assert (X : strip_nul (strip_nul s) = strip_nul s).
  { destruct (strip_nul_spec s) as [n Q]. rewrite Q at 2. rewrite strip_nul_app. reflexivity. }
  rewrite H, strip_nul_app in X. assert (Y : String.length (strip_nul r) = String.length (r +++ nuls 1)) by congruence.
  rewrite sapp_length in Y. cbn in Y. destruct (strip_nul_spec r) as [n Q]. rewrite Q in Y at 2. rewrite sapp_length in Y. lia.
Qed.

Lemma chartostring_Ok s t a : chartostring s t = Ok a ->
  exists r n ts, s = r ++ [n] /\ n <> 0 /\ texts_in r n t ts /\ a = Arr KU r (map EStr ts) false
    /\ forall c, In c (chars t) -> nat_of_ascii c < 128.
Proof.
  unfold chartostring. intro H. destruct (rev s) as [|n r] eqn:R; [discriminate|].
  destruct (Nat.eqb_spec n 0) as [EQ|NZ]; [discriminate|].
  destruct (forallb is_ascii (chars t)) eqn:AS; [|discriminate]. inversion H; subst a.
  exists (rev r), n, (map strip_nul (pieces (prod (rev r)) n t)). split; [|split; [exact NZ|split; [|split]]].
  - rewrite <- (rev_involutive s), R. reflexivity.
  - split; [rewrite map_length; apply pieces_length|]. intros i u H1. rewrite nth_error_map in H1.
    destruct (nth_error (pieces (prod (rev r)) n t) i) as [p|] eqn:Q; [|discriminate]. inversion H1; subst u.
    apply nth_pieces in Q. subst p. split; [apply strip_nul_spec|apply strip_nul_max].
  - rewrite map_map. reflexivity.
  - intros c I. rewrite forallb_forall in AS. apply AS in I. unfold is_ascii in I. apply Nat.ltb_lt in I. exact I.
Qed.

Lemma chartostring_ok r n t : n <> 0 -> (forall c, In c (chars t) -> nat_of_ascii c < 128) ->
  chartostring (r ++ [n]) t = Ok (Arr KU r (map (fun p => EStr (strip_nul p)) (pieces (prod r) n t)) false).
Proof.
  intros NZ AS. unfold chartostring. rewrite rev_app_distr. cbn [rev app]. rewrite rev_involutive.
  apply Nat.eqb_neq in NZ. rewrite NZ.
  replace (forallb is_ascii (chars t)) with true; [reflexivity|]. symmetry. apply forallb_forall. intros c I.
  apply Nat.ltb_lt. apply AS. exact I.
Qed.

(** an element as returned by the library *)
Definition plain_elt (e : elt) : Prop := elt_kind e = KI \/ elt_kind e = KF \/ elt_kind e = KU.

Lemma first_item_held a : List.length (a_data a) = prod (a_shape a) -> a_shape a <> [] -> prod (a_shape a) = 1 ->
  (forall e, In e (a_data a) -> plain_elt e \/ a_mask a = true) ->
  (forall e, In e (a_data a) -> elt_kind e = a_kind a \/ (a_mask a = true /\ e = EObj)) ->
  exists v w, first_item a = Ok v /\ normalize v = Ok w
    /\ value_is w (tl (a_shape a)) (a_data a) /\ masked w = a_mask a
    /\ (forall b, w = VArr b -> tl (a_shape a) = [] -> a_mask a = true)
    /\ (forall b, w = VArr b -> a_kind b = a_kind a).
Proof.
  destruct a as [k s d m]. cbn [a_shape a_data a_mask]. intros L NE P1 PL PK. destruct s as [|n s]; [congruence|].
  unfold first_item. cbn [a_shape a_data a_mask tl]. rewrite P1 in L. destruct d as [|e [|]]; try discriminate.
  destruct s as [|n' s].
  - destruct m.
    + do 2 eexists. split; [reflexivity|]. split; [reflexivity|]. cbn. split; [auto|]. split; [auto|]. split; [auto|]. intros b B. injection B as <-. reflexivity.
    + assert (PE : plain_elt e) by (destruct (PL e (or_introl eq_refl)) as [PE|PE]; [exact PE|discriminate PE]). unfold plain_elt in PE.
      destruct e; cbn in PE; try (destruct PE as [|[|]]; discriminate).
      * do 2 eexists. split; [reflexivity|]. split; [reflexivity|]. cbn. repeat split; auto; discriminate.
      * do 2 eexists. split; [reflexivity|]. split; [reflexivity|]. cbn. repeat split; auto; discriminate.
      * do 2 eexists. split; [reflexivity|]. split; [reflexivity|]. cbn. repeat split; auto; discriminate.
  - do 2 eexists. split; [reflexivity|]. split; [reflexivity|]. cbn. split; [auto|]. split; [reflexivity|]. split; [discriminate|]. intros b B. injection B as <-. reflexivity.
Qed.

(** the value of a variable *)
Lemma format_out (c : bool) a : List.length (a_data a) = prod (a_shape a) -> a_shape a <> [] ->
  (forall e, In e (a_data a) -> plain_elt e \/ a_mask a = true) ->
  (forall e, In e (a_data a) -> elt_kind e = a_kind a \/ (a_mask a = true /\ e = EObj)) ->
  exists v w, (if (a_size a =? 1) && c then first_item a else Ok (VArr a)) = Ok v /\ normalize v = Ok w
    /\ (value_is w (a_shape a) (a_data a)
        \/ (prod (a_shape a) = 1 /\ value_is w (tl (a_shape a)) (a_data a)
            /\ forall b, w = VArr b -> tl (a_shape a) = [] -> a_mask a = true))
    /\ masked w = a_mask a /\ (forall b, w = VArr b -> a_kind b = a_kind a).
Proof.
  intros L NE PL PK. unfold a_size. destruct (Nat.eqb_spec (prod (a_shape a)) 1) as [P1|P1]; cbn [andb].
  - destruct c.
    + destruct (first_item_held a L NE P1 PL PK) as [v [w [H1 [H2 [H3 [H4 [H5 H6]]]]]]]. exists v, w. auto 10.
    + do 2 eexists. split; [reflexivity|]. split; [reflexivity|]. cbn. split; [auto|]. split; [reflexivity|]. intros b B. injection B as <-. reflexivity.
  - do 2 eexists. split; [reflexivity|]. split; [reflexivity|]. cbn. split; [auto|]. split; [reflexivity|]. intros b B. injection B as <-. reflexivity.
Qed.

Lemma var_value n x : var_wf x -> var_readable x ->
  exists v w, snd (format_from_netcdf n x) = Ok v /\ normalize v = Ok w /\ var_held x w.
Proof.
  unfold var_wf, var_readable, format_from_netcdf. intros WF RD. destruct (nv_data x) as [k fill d|t|] eqn:D; [| |destruct RD].
  - destruct WF as [K [L HK]]. cbn [snd].
    destruct (format_out (negb (smem n data_keys))
                (Arr k (nv_shape x) (map (read_elt fill) d) (match fill with Some e => existsb (elt_eqb e) d | None => false end)))
      as [v [w [H1 [H2 [H3 [H4 H5]]]]]]; cbn [a_shape a_data a_mask a_kind]; [rewrite map_length; exact L|exact RD|..].
    + intros e I. destruct (read_elts_kind fill d k HK e I) as [Q|[Q _]]; [left; unfold plain_elt; rewrite Q; tauto|right; exact Q].
    + exact (read_elts_kind fill d k HK).
    + exists v, w. split; [exact H1|]. split; [exact H2|]. cbn [a_shape a_data a_mask] in H3, H4.
      assert (HM : masked w = has_missing x) by (rewrite H4; unfold has_missing; rewrite D; destruct fill; reflexivity).
      destruct H3 as [H3|[H3 [H3' H3'']]].
      * exists (nv_shape x), (nv_shape x), (map (read_elt fill) d). split; [econstructor; [exact D|apply read_elts]|].
        split; [exact H3|]. split; [exact HM|]. split; [auto|]. split; [auto|].
        intros b k' fill' l' B E. rewrite D in E. injection E as <- _ _. apply H5, B.
      * exists (nv_shape x), (tl (nv_shape x)), (map (read_elt fill) d). split; [econstructor; [exact D|apply read_elts]|]. split; [exact H3'|]. split; [exact HM|].
        split; [auto|]. split; [intros b B T; right; rewrite <- HM, H4; eauto|].
        intros b k' fill' l' B E. rewrite D in E. injection E as <- _ _. apply H5, B.
  - destruct RD as [[s [m [SH NZ]]] AS]. cbn [snd]. destruct (chartostring (nv_shape x) t) as [a|e] eqn:C.
    2:{ rewrite SH, chartostring_ok in C by assumption. discriminate. }
    destruct (chartostring_Ok _ _ _ C) as [r [n' [ts [S' [N' [TI [-> _]]]]]]].
    assert (XX : r = s /\ n' = m) by (apply app_inj_tail; congruence). destruct XX as [-> ->].
    cbn [rbind]. set (a := reshape (Arr KU s (map EStr ts) false) (sh_atleast_1d (a_shape (Arr KU s (map EStr ts) false)))).
    assert (AS' : a_shape a = match s with [] => [1] | _ => s end) by (destruct s; reflexivity).
    assert (PR : prod (a_shape a) = prod s) by (rewrite AS'; destruct s; reflexivity).
    destruct (format_out (negb (smem n data_keys)) a) as [v [w [H1 [H2 [H3 [H4 H5]]]]]].
    + rewrite PR. cbn [a a_data reshape]. rewrite map_length. apply TI.
    + rewrite AS'. destruct s; discriminate.
    + cbn [a a_data reshape]. intros e I. apply in_map_iff in I. destruct I as [u [<- _]]. unfold plain_elt. cbn. tauto.
    + cbn [a a_data reshape]. intros e I. apply in_map_iff in I. destruct I as [u [<- _]]. left; reflexivity.
    + exists v, w. split; [exact H1|]. split; [exact H2|].
      assert (VH : var_holds x (a_shape a) (a_data a)).
      { rewrite AS'. cbn [a a_data reshape]. econstructor; [exact D|exact SH|exact TI]. }
      assert (HM : masked w = has_missing x) by (rewrite H4; unfold has_missing; rewrite D; reflexivity).
      destruct H3 as [H3|[H3 [H3' H3'']]].
      * exists (a_shape a), (a_shape a), (a_data a). split; [exact VH|]. split; [exact H3|]. split; [exact HM|]. split; [auto|].
        split; [auto|]. intros b k' fill' l' B E. rewrite D in E. discriminate E.
      * exists (a_shape a), (tl (a_shape a)), (a_data a). split; [exact VH|]. split; [exact H3'|]. split; [exact HM|].
        split; [auto|]. split; [intros b B T; right; rewrite <- HM, H4; eauto|]. intros b k' fill' l' B E. rewrite D in E. discriminate E.
Qed.

Lemma format_held n x v w : snd (format_from_netcdf n x) = Ok v -> normalize v = Ok w -> var_wf x -> var_held x w.
Proof.
  intros H NV WF.
  assert (C : var_readable x \/ (nv_shape x = [] /\ exists k fill d, nv_data x = DNum k fill d)).
  { unfold var_readable, format_from_netcdf in *. destruct (nv_data x) as [k fill d|t|]; cbn [snd] in H.
    - destruct (nv_shape x) as [|m r]; [right|left; discriminate]. split; [reflexivity|]. eauto.
    - left. apply rbind_Ok in H. destruct H as [a [H _]]. apply chartostring_Ok in H.
      destruct H as [r [m [ts [S1 [S2 [_ [_ AS]]]]]]]. split; [eauto|exact AS].
    - discriminate. }
  destruct C as [RD|[SH [k [fill [d D]]]]].
  - destruct (var_value n x WF RD) as [v' [w' [V1 [V2 V3]]]]. congruence.
  - unfold format_from_netcdf in H. rewrite D, SH in H. cbn [snd] in H.
    destruct (_ && _).
    + unfold first_item in H. cbn [a_shape a_data] in H. discriminate.
    + inversion H; subst v. cbn in NV. inversion NV; subst w. exists [], [], (map (read_elt fill) d).
      split; [rewrite <- SH; econstructor; [exact D|apply read_elts]|]. unfold var_wf in WF. rewrite D in WF. destruct WF as [_ [_ HK]].
      split; [split; [reflexivity|split; [reflexivity|exact (read_elts_kind fill d k HK)]]|].
      split; [cbn [masked a_mask]; unfold has_missing; rewrite D; destruct fill; reflexivity|].
      split; [auto|]. split; [auto|]. intros b k' fill' l' B E. injection B as <-. rewrite D in E. injection E as <- _ _. reflexivity.
Qed.

(** ** Data of the object *)
Lemma rmap_In {A B} (f : A -> res B) l r a : rmap f l = Ok r -> In a l -> exists b, f a = Ok b /\ In b r.
Proof.
  revert r. induction l as [|x l IH]; intros r R I; [destruct I|]. cbn [rmap] in R. apply rbind_Ok in R.
  destruct R as [y [R1 R]]. apply rbind_Ok in R. destruct R as [r' [R2 R]]. inversion R; subst. destruct I as [->|I].
  - exists y. split; [exact R1|left; reflexivity].
  - destruct (IH r' R2 I) as [b [B1 B2]]. exists b. split; [exact B1|right; exact B2].
Qed.

Lemma dget_key_In {A} k (d : dict A) v : dget k d = Some v -> In k (dkeys d).
Proof. intro H. apply dget_Some_In. eauto. Qed.

Lemma items_same_data f its p : file_wf f -> NoDup (file_names f) -> file_items f = Ok its ->
  (forall k, dget k (pub p) = item_value k its) -> same_data f p.
Proof.
  intros WF N FI DP. assert (NM := items_names f its FI). rewrite <- NM in N.
  assert (IV : forall i, In i its -> dget (i_name i) (pub p) = Some (i_value i)).
  { intros i I. rewrite DP. apply item_value_In; assumption. }
  destruct (file_items_inv f its FI) as [g [l [HG [HV EQ]]]].
  split.
  - intro k. unfold contained. rewrite <- dget_Some_In, DP, <- NM. split.
    + intros [v V]. destruct (in_dec string_dec k (map i_name its)) as [I|I]; [exact I|]. apply item_value_None in I. congruence.
    + intro I. destruct (item_value k its) eqn:Q; [eauto|]. apply item_value_None in Q. contradiction.
  - intros a v I. destruct (rmap_In _ _ _ _ HG I) as [i [H1 H2]]. cbn [fst snd] in H1. apply attr_item_inv in H1.
    destruct H1 as [H1 H3]. exists (i_value i). split; [|apply normalize_held; [eapply fw_attrs; eassumption|exact H3]].
    rewrite <- (IV i) by (rewrite EQ; apply in_or_app; auto). rewrite H1. reflexivity.
  - intros n x I. destruct (rmap_In _ _ _ _ HV I) as [li [H1 H2]]. apply var_items_inv in H1.
    destruct H1 as [v [w [r [H1 [H3 [_ EL]]]]]]. cbn [fst snd] in *. exists w. split.
    + change w with (i_value (sofa_name n, w, Some (join "" (nv_dims x)), var_type x)) at 1.
      rewrite <- IV; [rewrite <- sofa_name_undotted; reflexivity|]. rewrite EQ. apply in_or_app. right. apply in_concat.
      exists li. split; [exact H2|]. rewrite EL. left. reflexivity.
    + eapply format_held; [exact H1|exact H3|]. eapply fw_vars; eassumption.
  - intros n x a v I J NE. destruct (rmap_In _ _ _ _ HV I) as [li [H1 H2]]. apply var_items_inv in H1.
    destruct H1 as [v0 [w0 [r [_ [_ [H1 EL]]]]]]. cbn [fst snd] in *.
    assert (JK : In (a, v) (kept_attrs x)).
    { apply filter_In. split; [exact J|]. cbn [fst]. rewrite (eqb_neq_s _ _ NE). reflexivity. }
    destruct (rmap_In _ _ _ _ H1 JK) as [i [H3 H4]]. cbn [fst snd] in H3. apply attr_item_inv in H3. destruct H3 as [H3 H5].
    exists (i_value i). split; [|apply normalize_held; [eapply fw_vattrs; eassumption|exact H5]].
    rewrite <- (IV i).
    + rewrite H3. rewrite sofa_name_undotted. reflexivity.
    + rewrite EQ. apply in_or_app. right. apply in_concat. exists li. split; [exact H2|]. rewrite EL. right. exact H4.
Qed.

(** readable files *)
Lemma rmap_total {A B} (f : A -> res B) l : (forall a, In a l -> exists b, f a = Ok b) -> exists r, rmap f l = Ok r.
Proof.
  induction l as [|a l IH]; intro H; [exists []; reflexivity|].
  destruct (H a (or_introl eq_refl)) as [b B1]. destruct IH as [r R]; [intros x I; apply H; right; exact I|].
  exists (b :: r). cbn [rmap]. rewrite B1, R. reflexivity.
Qed.

Lemma readable_items f : file_wf f -> file_readable f -> exists its, file_items f = Ok its.
Proof.
  intros WF [R1 [R2 R3]].
  destruct (rmap_total (fun b => attr_item ("GLOBAL_" +++ fst b) (snd b)) (nf_attrs f)) as [g G].
  { intros [a v] I. cbn [fst snd]. destruct (attr_value v (fw_attrs _ WF _ _ I)) as [w [W _]]. unfold attr_item. rewrite W. eexists; reflexivity. }
  destruct (rmap_total var_items (nf_vars f)) as [l L].
  { intros [n x] I. destruct (R2 n x I) as [RD _]. destruct (var_value n x (fw_vars _ WF _ _ I) RD) as [v [w [V1 [V2 _]]]].
    unfold var_items. cbn [fst snd]. rewrite V1. cbn [rbind]. rewrite V2. cbn [rbind]. unfold vattr_items.
    destruct (rmap_total (fun b => attr_item (sofa_name n +++ "_" +++ fst b) (snd b)) (kept_attrs x)) as [r R].
    - intros [a v'] J. apply filter_In in J. destruct J as [J _]. cbn [fst snd].
      destruct (attr_value v' (fw_vattrs _ WF _ _ _ _ I J)) as [w' [W _]]. unfold attr_item. rewrite W. eexists; reflexivity.
    - rewrite R. eexists; reflexivity. }
  exists (g ++ List.concat l). unfold file_items, gattr_items. rewrite G, L. reflexivity.
Qed.

Lemma readable_accessible f : file_readable f -> accessible f.
Proof.
  intros [R1 [R2 _]]. split; [exact R1|]. intros n x I. destruct (R2 n x I) as [_ [S1 S2]]. split; [exact S1|].
  intros a J. rewrite kept_keys in J. apply filter_In in J. destruct J as [J1 J2]. apply S2; [exact J1|].
  intros ->. discriminate.
Qed.

Lemma readable_clean f its : file_readable f -> file_items f = Ok its -> forall i, In i its -> clean_key (i_name i).
Proof.
  intros [_ [_ R3]] FI i I. apply R3. rewrite <- (items_names f its FI). apply in_map. exact I.
Qed.

Lemma entered_dicts i o : dicts_ok o -> dicts_ok (entered i o).
Proof.
  intros [D1 D2]. split; [apply NoDup_dset; exact D1|]. cbn [entered custom].
  destruct (_ && _); [|exact D2]. apply NoDup_dset. destruct (custom o); [exact D2|constructor].
Qed.
Lemma enter_dicts its : forall st, dicts_ok (fst st) -> dicts_ok (fst (enter its st)).
Proof.
  induction its as [|i its IH]; intros st D; [exact D|]. cbn [enter fold_left]. fold (enter its). apply IH.
  apply entered_dicts. exact D.
Qed.
Lemma left_over_dicts ns o : dicts_ok o -> dicts_ok (left_over ns o).
Proof.
  intros [D1 D2]. split; [apply NoDup_filter_keys; exact D1|]. cbn [left_over custom]. destruct (custom o) as [c|]; [|exact I].
  revert c D2. induction (filter (fun k => negb (smem k ns)) (dkeys (pub o))) as [|k l IH]; intros c D2; [exact D2|].
  cbn [fold_left]. apply IH. apply NoDup_ddel. exact D2.
Qed.
Lemma read_content_dicts f o p ev cu : file_wf f -> dicts_ok o -> read_content f o = (p, ev, Ok cu) -> dicts_ok p.
Proof.
  intros WF D H. destruct (read_content_Ok _ _ _ _ _ WF (proj1 D) H) as [its [_ [_ [_ [-> _]]]]].
  apply left_over_dicts. apply enter_dicts. exact D.
Qed.
Lemma empty_nodup : NoDup (dkeys (pub empty_sofa)).
Proof. constructor. Qed.
