(** Refused assignments, deletions and creations say what is wrong (C114). *)
From Coq Require Import ZArith Lia.
From Verif Require Import Base PyStr PyNum NdArray Sofa Verify Upgrade Verify Demo SpecAttr SpecInit
  BaseFacts StrFacts AttrFacts OpFacts InitFacts MissingFacts DemoFacts.
Open Scope string_scope.
Open Scope list_scope.
Open Scope nat_scope.

(** ** Statement *)

(** reasons for not assigning [v] to [name] *)
Inductive not_assigned (o : sofa) (name : string) (v : value) : exn -> Prop :=
| na_unknown : prot o = true -> hasattr o name = false ->
    not_assigned o name v (Exn ETypeError (name +++ " is an invalid attribute"))
| na_read_only : prot o = true -> hasattr o name = true -> in_ro name (ro o) = true ->
    not_assigned o name v (Exn ETypeError (name +++ " is a read only attribute. Iy you know what you are doing, you can set Sofa.protected = False to write read only data (e.g., to repair corrupted SOFA data)."))
| na_protection : name = "protected" -> (prot o = true -> in_ro name (ro o) = false) -> (forall b, v <> VScal (EBool b)) ->
    not_assigned o name v (Exn EValueError "Sofa.protected can only be True or False")
| na_value x : name <> "protected" -> (prot o = true -> hasattr o name = true /\ in_ro name (ro o) = false) ->
    normalize v = Err x -> not_assigned o name v x.

(** reasons for not deleting [name] *)
Inductive not_deleted (o : sofa) (name : string) : exn -> Prop :=
| nd_unknown : hasattr o name = false -> not_deleted o name (Exn ETypeError (name +++ " is not an attribute"))
| nd_mandatory e : prot o = true -> hasattr o name = true -> dget name (conv o) = Some e -> is_mandatory (e_flags e) = true ->
    not_deleted o name (Exn ETypeError (name +++ " is a mandatory attribute that can not be deleted"))
| nd_undeclared : prot o = true -> hasattr o name = true -> ~ In name (dkeys (conv o)) -> not_deleted o name (Exn EKeyError name)
| nd_method : hasattr o name = true -> ~ In name (dkeys (pub o)) ->
    (prot o = true -> exists e, dget name (conv o) = Some e /\ is_mandatory (e_flags e) = false) ->
    not_deleted o name (Exn EAttributeError name).

(** ** Proofs *)
Lemma protected_there o : hasattr o "protected" = true.
Proof. unfold hasattr. rewrite orb_true_iff. right. reflexivity. Qed.

(** An assignment is refused, without effect, exactly for these reasons, of which one at
    most applies. *)
Theorem C114_assignment :
  forall o name v, is_private name = false -> name <> "list_dimensions" ->
  (forall x, m_res (set_attr name v o) = Err x <-> not_assigned o name v x)
  /\ (forall x, m_res (set_attr name v o) = Err x -> set_attr name v o = (o, [], Err x)).
Proof.
  intros o name v P L. unfold set_attr. rewrite P, (eqb_neq_s _ _ L). cbn [orb].
  destruct (prot o && negb (hasattr o name)) eqn:A.
  { apply andb_true_iff in A. destruct A as [A1 A2]. apply negb_true_iff in A2. split; [|cbn; congruence]. intro x. cbn. split.
    - intro Q. injection Q as <-. apply na_unknown; assumption.
    - intro N. destruct N as [N1 N2|N1 N2 N3|N1 N2 N3|x N1 N2 N3]; try congruence.
      + subst name. rewrite protected_there in A2. discriminate A2.
      + destruct (N2 A1). congruence. }
  assert (A' : prot o = true -> hasattr o name = true).
  { intro R. rewrite R in A. cbn [andb] in A. apply negb_false_iff in A. exact A. }
  destruct (in_ro name (ro o) && prot o) eqn:B.
  { apply andb_true_iff in B. destruct B as [B1 B2]. split; [|cbn; congruence]. intro x. cbn. split.
    - intro Q. injection Q as <-. apply na_read_only; auto.
    - intro N. destruct N as [N1 N2|N1 N2 N3|N1 N2 N3|x N1 N2 N3]; try congruence.
      + rewrite (A' N1) in N2. discriminate N2.
      + reflexivity.
      + rewrite (N2 B2) in B1. discriminate B1.
      + destruct (N2 B2). congruence. }
  assert (B' : prot o = true -> in_ro name (ro o) = false).
  { intro R. rewrite R, andb_true_r in B. exact B. }
  destruct (String.eqb_spec name "protected") as [->|NP].
  - assert (X : (exists b, v = VScal (EBool b)) \/ (forall b, v <> VScal (EBool b))).
    { destruct v as [b s|[]|a|l]; (right; discriminate) || (left; eauto). }
    destruct X as [[b ->]|X].
    + split; [|cbn; discriminate]. intro x. cbn. split; [discriminate|].
      intro N. destruct N as [N1 N2|N1 N2 N3|N1 N2 N3|x N1 N2 N3]; try congruence.
      * rewrite protected_there in N2. discriminate N2.
      * rewrite (B' N1) in N3. discriminate N3.
      * destruct (N3 b eq_refl).
    + assert (Q : (match v with VScal (EBool b) => (with_prot o b, [], Ok tt) | _ => (o, [], Err (Exn EValueError "Sofa.protected can only be True or False")) end
                   : sofa * list event * res unit) = (o, [], Err (Exn EValueError "Sofa.protected can only be True or False"))).
      { destruct v as [? ?|[]|?|?]; try reflexivity. destruct (X _ eq_refl). }
      rewrite Q. split; [|cbn; congruence]. intro x. cbn. split.
      * intro R. injection R as <-. apply na_protection; auto.
      * intro N. destruct N as [N1 N2|N1 N2 N3|N1 N2 N3|x N1 N2 N3]; try congruence.
        -- rewrite protected_there in N2. discriminate N2.
        -- rewrite (B' N1) in N3. discriminate N3.
  - destruct (normalize v) as [w|y] eqn:NV.
    + split; [|cbn; discriminate]. intro x. cbn. split; [discriminate|].
      intro N. destruct N as [N1 N2|N1 N2 N3|N1 N2 N3|x N1 N2 N3]; try congruence.
      * rewrite (A' N1) in N2. discriminate N2.
      * rewrite (B' N1) in N3. discriminate N3.
    + split; [|cbn; congruence]. intro x. cbn. split.
      * intro Q. injection Q as <-. apply na_value; auto.
      * intro N. destruct N as [N1 N2|N1 N2 N3|N1 N2 N3|x N1 N2 N3]; try congruence.
        -- rewrite (A' N1) in N2. discriminate N2.
        -- rewrite (B' N1) in N3. discriminate N3.
Qed.
Print Assumptions C114_assignment.

(** The same for deletions. *)
Theorem C114_deletion :
  forall o name, is_private name = false ->
  (forall x, m_res (del_attr name o) = Err x <-> not_deleted o name x)
  /\ (forall x, m_res (del_attr name o) = Err x -> del_attr name o = (o, [], Err x)).
Proof.
  intros o name P. unfold del_attr. rewrite P.
  destruct (hasattr o name) eqn:A; cbn [negb].
  2: { split; [|cbn; congruence]. intro x. cbn. split.
       - intro Q. injection Q as <-. apply nd_unknown. exact A.
       - intro N. destruct N as [N1|e N1 N2 N3 N4|N1 N2 N3|N1 N2 N3]; congruence. }
  assert (FIN : (prot o = true -> exists e, dget name (conv o) = Some e /\ is_mandatory (e_flags e) = false) ->
    forall y : sofa, let r : sofa * list event * res unit := if dmem name (pub o) then (y, [], Ok tt) else (o, [], Err (Exn EAttributeError name)) in
    (forall x, m_res r = Err x <-> not_deleted o name x) /\ (forall x, m_res r = Err x -> r = (o, [], Err x))).
  { intros H y. cbv zeta. destruct (dmem name (pub o)) eqn:D.
    - apply dmem_In in D. split; [|cbn; discriminate]. intro x. cbn. split; [discriminate|].
      intro N. destruct N as [N1|e N1 N2 N3 N4|N1 N2 N3|N1 N2 N3]; [congruence| | |destruct (N2 D)].
      + destruct (H N1) as [e' [E1 E2]]. congruence.
      + destruct (H N1) as [e' [E1 E2]]. destruct N3. apply dget_Some_In. eauto.
    - apply dmem_false in D. split; [|cbn; congruence]. intro x. cbn. split.
      + intro Q. injection Q as <-. apply nd_method; assumption.
      + intro N. destruct N as [N1|e N1 N2 N3 N4|N1 N2 N3|N1 N2 N3]; [congruence| | |reflexivity].
        * destruct (H N1) as [e' [E1 E2]]. congruence.
        * destruct (H N1) as [e' [E1 E2]]. destruct N3. apply dget_Some_In. eauto. }
  destruct (prot o) eqn:R; [|apply FIN; discriminate].
  unfold dgetE. destruct (dget name (conv o)) as [e|] eqn:D; cbn [rbind].
  - destruct (is_mandatory (e_flags e)) eqn:M; cbn [negb].
    + split; [|cbn; congruence]. intro x. cbn. split.
      * intro Q. injection Q as <-. apply (nd_mandatory _ _ e); assumption.
      * intro N. destruct N as [N1|e' N1 N2 N3 N4|N1 N2 N3|N1 N2 N3]; try congruence.
        -- destruct N3. apply dget_Some_In. eauto.
        -- destruct (N3 R) as [e' [E1 E2]]. congruence.
    + apply FIN. intros _. eauto.
  - split; [|cbn; congruence]. intro x. cbn. split.
    + intro Q. injection Q as <-. apply nd_undeclared; try assumption. apply dget_None. exact D.
    + intro N. destruct N as [N1|e' N1 N2 N3 N4|N1 N2 N3|N1 N2 N3]; try congruence.
      destruct (N3 R) as [e' [E1 E2]]. congruence.
Qed.
Print Assumptions C114_deletion.

(** Unknown conventions and versions are reported; for versions the report lists all
    versions that exist. *)
Theorem C114_creation :
  forall E c mandatory version vo, db_ok E ->
  ((forall v content, ~ has_file E c v content) ->
     sofa_init E c mandatory version vo
     = ([], Err (Exn EValueError ("Convention '" +++ c +++ "' not found. See sofar.list_conventions() for available conventions."))))
  /\ (version <> "latest" -> (exists v content, has_file E c v content) -> (forall content, ~ has_file E c version content) ->
     exists vs, NoDup vs /\ (forall v, In v vs <-> exists content, has_file E c v content)
     /\ sofa_init E c mandatory version vo
        = ([], Err (Exn EValueError ("Version " +++ version +++ " not found. Available versions are ["
             +++ String.concat ", " (map (fun v => "'" +++ v +++ "'") vs) +++ "]")))).
Proof.
  intros E c mandatory version vo DB. assert (NV := name_version_ok E DB). assert (DB' := DB). destruct DB' as [ND OK].
  unfold sofa_init, load_convention. destruct (get_name_version E) as [nv|]; [|discriminate NV]. cbn [rbind].
  set (P := fun f : string * convention => startswith (c +++ "_") (fst f)).
  assert (FF : forall f, In f (filter P (db E)) -> fst f = file_name c (file_version (fst f)) /\ has_file E c (file_version (fst f)) (snd f)).
  { intros f F. apply filter_In in F. destruct F as [F1 F2]. destruct (file_ok_prefix f c (OK f F1) F2) as [v' [W1 [W2 _]]].
    assert (Q : fst f = file_name c (file_version (fst f))) by (rewrite W2; exact W1).
    split; [exact Q|]. unfold has_file. rewrite <- Q. destruct f; exact F1. }
  assert (FB : forall v content, has_file E c v content -> In (file_name c v, content) (filter P (db E))).
  { intros v content H. apply filter_In. split; [exact H|exact (has_file_prefix _ _ _ _ H)]. }
  assert (NF : NoDup (map fst (filter P (db E)))) by (clear -ND; induction (db E) as [|f l IH]; cbn [filter map] in *;
    [constructor|]; inversion ND as [|? ? N1 N2]; subst; destruct (P f); [|exact (IH N2)]; cbn [map]; constructor; [|exact (IH N2)];
    intro I; apply N1; apply in_map_iff in I; destruct I as [g [G1 G2]]; apply filter_In in G2; apply in_map_iff; exists g; tauto).
  split.
  - intro H. destruct (filter P (db E)) as [|f fs] eqn:EF; [reflexivity|].
    destruct (FF f (or_introl eq_refl)) as [_ X]. destruct (H _ _ X).
  - intros N [v0 [ct0 H0]] H. assert (F0 := FB v0 ct0 H0). rewrite (eqb_neq_s _ _ N).
    destruct (filter P (db E)) as [|f fs] eqn:EF; [destruct F0|]. rewrite <- EF in *. clear EF f fs.
    exists (map (fun f => file_version (fst f)) (filter P (db E))).
    split; [|split].
    + apply (NoDup_map_inv (file_name c)). rewrite map_map. replace (map (fun f => file_name c (file_version (fst f))) (filter P (db E))) with (map fst (filter P (db E))); [exact NF|].
      apply map_ext_in. intros f F. apply FF. exact F.
    + intro v. rewrite in_map_iff. split.
      * intros [f [<- F]]. exists (snd f). apply FF. exact F.
      * intros [ct C]. exists (file_name c v, ct). split; [|exact (FB v ct C)]. cbn [fst]. apply (has_file_version E c v ct DB C).
    + destruct (find _ (filter P (db E))) as [g|] eqn:EG.
      * exfalso. apply find_some in EG. destruct EG as [G1 G2]. apply String.eqb_eq in G2. destruct (FF g G1) as [_ X]. rewrite G2 in X. destruct (H _ X).
      * unfold str_list. reflexivity.
Qed.
Print Assumptions C114_creation.

Example C114_case :
  not_assigned demo_sofa "Temp" (zi 1%Z) (Exn ETypeError "Temp is an invalid attribute")
  /\ not_deleted demo_sofa "Data_IR" (Exn ETypeError "Data_IR is a mandatory attribute that can not be deleted")
  /\ not_deleted demo_sofa "verify" (Exn EKeyError "verify")
  /\ (forall x, ~ not_assigned demo_sofa "GLOBAL_Title" (VStr false "title") x)
  /\ (forall x, ~ not_deleted demo_sofa "GLOBAL_ApplicationName" x)
  /\ snd (sofa_init demo "SimpleFreeField" false "latest" VAuto)
     = Err (Exn EValueError "Convention 'SimpleFreeField' not found. See sofar.list_conventions() for available conventions.")
  /\ snd (sofa_init demo "SimpleFreeFieldHRIR" false "7.0" VAuto)
     = Err (Exn EValueError "Version 7.0 not found. Available versions are ['1.0', '0.4']").
Proof.
  split. { apply (proj1 (C114_assignment demo_sofa "Temp" (zi 1%Z) eq_refl ltac:(discriminate))). vm_compute. reflexivity. }
  split. { apply (proj1 (C114_deletion demo_sofa "Data_IR" eq_refl)). vm_compute. reflexivity. }
  split. { apply (proj1 (C114_deletion demo_sofa "verify" eq_refl)). vm_compute. reflexivity. }
  split. { intros x N. apply (proj1 (C114_assignment demo_sofa "GLOBAL_Title" (VStr false "title") eq_refl ltac:(discriminate))) in N.
           assert (Q : m_res (set_attr "GLOBAL_Title" (VStr false "title") demo_sofa) = Ok tt) by (vm_compute; reflexivity). congruence. }
  split. { intros x N. apply (proj1 (C114_deletion demo_sofa "GLOBAL_ApplicationName" eq_refl)) in N.
           assert (Q : m_res (del_attr "GLOBAL_ApplicationName" demo_sofa) = Ok tt) by (vm_compute; reflexivity). congruence. }
  split; vm_compute; reflexivity.
Qed.
