(** C01-C10: attribute access, adding and deleting entries. *)
From Verif Require Import Base PyStr PyNum NdArray Sofa Verify Upgrade Demo
  SpecAttr SpecInit SpecValue SpecMix DemoFacts AttrFacts OpFacts InitFacts ProtFacts AddDelFacts MixFacts.
From Coq Require Import ZArith Lia.
Open Scope string_scope.
Open Scope list_scope.

(** ** C01 *)

(** While protected: for any object following a convention *)
Theorem C01_read_only_fixed :
  forall E o c v cv ops, armed_with E o c v cv -> protected_run E o ops ->
  forall k e w, dget k cv = Some e -> is_mandatory (e_flags e) = true ->
    is_read_only (e_flags e) = true ->
    dget k (pub o) = Some w -> dget k (pub (run E o ops)) = Some w.
Proof. intros E o c v cv ops A P. exact (kp_ro _ _ _ (proj2 (run_kept E c v cv ops o A P))). Qed.
Print Assumptions C01_read_only_fixed.

(** For objects returned by Sofa(...) and users that do not switch off the
    protection and add no values that can not be stored *)
Theorem C01_new_object_read_only_fixed :
  forall E c mandatory version vo ev o ops, db_ok E -> db_tidy E ->
  sofa_init E c mandatory version vo = (ev, Ok o) -> Forall safe_op ops ->
  forall k e w, dget k (conv o) = Some e -> is_mandatory (e_flags e) = true ->
    is_read_only (e_flags e) = true ->
    dget k (pub o) = Some w -> dget k (pub (run E o ops)) = Some w.
Proof.
  intros E c mandatory version vo ev o ops D T I S.
  destruct (armed_init E c mandatory version vo ev o D I) as [v [A [P [_ [_ [_ [C _]]]]]]].
  refine (C01_read_only_fixed E o c v (conv o) ops A (protected_run_safe E o ops T _ P S)).
  intros cu ke H. rewrite C in H. discriminate.
Qed.
Print Assumptions C01_new_object_read_only_fixed.

Example C01_case :
  Forall safe_op demo_ops
  /\ dget "GLOBAL_DataType" (pub (run demo demo_sofa demo_ops)) = Some (VStr false "FIR")
  /\ dget "Mood" (pub (run demo demo_sofa demo_ops)) <> None.
Proof.
  split; [repeat constructor; cbn; try discriminate; try (left; discriminate)|].
  split; vm_compute; [reflexivity|discriminate].
Qed.

(** without [protected_run]: a rejected add_variable (ragged list) switches the
    protection off, so that read-only data can be changed although the user
    never touched the protection *)
Definition ragged : value := VList [VList [zi 1%Z; zi 2%Z]; VList [zi 3%Z]].
Theorem C01_refuted_after_failed_add :
  exists ops, (forall n v, In (OSet n v) ops -> n <> "protected")
    /\ dget "GLOBAL_DataType" (pub demo_sofa) = Some (VStr false "FIR")
    /\ dget "GLOBAL_DataType" (pub (run demo demo_sofa ops)) = Some (VStr false "TF").
Proof.
  exists [OAddVar "Temp" ragged "double" (Some "MR"); OSet "GLOBAL_DataType" (VStr false "TF")].
  split; [|split; vm_compute; reflexivity].
  intros n v [H|[H|[]]]; inversion H. discriminate.
Qed.
Print Assumptions C01_refuted_after_failed_add.

(** ** C02 *)

Theorem C02_mandatory_stay :
  forall E o c v cv ops, armed_with E o c v cv -> protected_run E o ops ->
  forall k e, dget k cv = Some e -> is_mandatory (e_flags e) = true ->
    In k (dkeys (pub o)) -> In k (dkeys (pub (run E o ops))).
Proof. intros E o c v cv ops A P. exact (kp_m _ _ _ (proj2 (run_kept E c v cv ops o A P))). Qed.
Print Assumptions C02_mandatory_stay.

Theorem C02_new_object_mandatory_stay :
  forall E c mandatory version vo ev o ops, db_ok E -> db_tidy E ->
  sofa_init E c mandatory version vo = (ev, Ok o) -> Forall safe_op ops ->
  forall k e, dget k (conv o) = Some e -> is_mandatory (e_flags e) = true ->
    In k (dkeys (pub (run E o ops))).
Proof.
  intros E c mandatory version vo ev o ops D T I S k e H1 H2.
  destruct (armed_init E c mandatory version vo ev o D I) as [v [A [P [_ [N [_ [C _]]]]]]].
  refine (C02_mandatory_stay E o c v (conv o) ops A (protected_run_safe E o ops T _ P S) k e H1 H2 _).
  - intros cu ke H. rewrite C in H. discriminate.
  - apply BaseFacts.dget_Some_In. specialize (N k). destruct (dget k (creation_entries E)) as [s|]; [eauto|].
    rewrite H1, H2 in N. cbn in N. destruct N as [w [N _]]. eauto.
Qed.
Print Assumptions C02_new_object_mandatory_stay.

Example C02_case :
  In "Data_IR" (dkeys (pub (run demo demo_sofa demo_ops)))
  /\ m_res (del_attr "Data_IR" demo_sofa)
     = Err (Exn ETypeError "Data_IR is a mandatory attribute that can not be deleted").
Proof. split; vm_compute; intuition reflexivity. Qed.

(** ** C03 *)

(** missing: assignment to the names of methods, see [C03_refuted] *)
Theorem C03_assignment_never_creates_partial :
  forall o name v, prot o = true -> is_private name = false -> ~ In name class_attrs ->
  dkeys (pub (m_obj (set_attr name v o))) = dkeys (pub o)
  /\ (~ In name (dkeys (pub o)) ->
      exists m, set_attr name v o = (o, [], Err (Exn ETypeError m))).
Proof.
  intros o name v P HP HC.
  exact (conj (set_attr_same_keys o name v P HC) (set_attr_unknown o name v P HP HC)).
Qed.
Print Assumptions C03_assignment_never_creates_partial.

Example C03_case :
  set_attr "NewName" (zi 1%Z) demo_sofa
    = (demo_sofa, [], Err (Exn ETypeError "NewName is an invalid attribute"))
  /\ m_res (set_attr "Data_IR" (zi 1%Z) demo_sofa) = Ok tt.
Proof. split; vm_compute; reflexivity. Qed.

(** assigning to the name of a method creates a new entry, and verify then fails *)
Theorem C03_refuted :
  prot demo_sofa = true /\ ~ In "copy" (dkeys (pub demo_sofa))
  /\ m_res (set_attr "copy" (zi 1%Z) demo_sofa) = Ok tt
  /\ In "copy" (dkeys (pub (step demo demo_sofa (OSet "copy" (zi 1%Z)))))
  /\ m_res (verify demo HReturn VWrite (step demo demo_sofa (OSet "copy" (zi 1%Z))))
     = Err (Exn EKeyError "copy").
Proof.
  split; [reflexivity|]. split; [vm_compute; intuition discriminate|].
  split; [reflexivity|]. split; [vm_compute; intuition|vm_compute; reflexivity].
Qed.
Print Assumptions C03_refuted.

(** ** C04 *)

Theorem C04_rejected_without_effect :
  forall o name v e,
  (m_res (set_attr name v o) = Err e -> m_obj (set_attr name v o) = o)
  /\ (m_res (del_attr name o) = Err e -> m_obj (del_attr name o) = o).
Proof. intros o name v e. exact (conj (set_attr_err o name v e) (del_attr_err o name e)). Qed.
Print Assumptions C04_rejected_without_effect.

Example C04_case :
  m_res (set_attr "GLOBAL_DataType" (VStr false "TF") demo_sofa)
    = Err (Exn ETypeError (msg_read_only "GLOBAL_DataType"))
  /\ m_res (set_attr "Data_IR" ragged demo_sofa) = Err (Exn EValueError "inhomogeneous shape").
Proof. split; vm_compute; reflexivity. Qed.

(** ** C05 *)

(** what an accepted assignment stores *)
Theorem C05_assignment_stores_normal_form :
  forall o name v o' ev, name <> "protected" ->
  set_attr name v o = (o', ev, Ok tt) ->
  exists w, normalize v = Ok w /\ dget name (pub o') = Some w
    /\ (forall l, w <> VList l)
    /\ (forall k, k <> name -> dget k (pub o') = dget k (pub o))
    /\ set_attr name w o' = (o', [], Ok tt).
Proof.
  intros o name v o' ev N H.
  destruct (set_attr_Ok name v o o' ev tt H N) as [w [H1 [-> _]]]. exists w.
  split; [exact H1|]. split; [apply BaseFacts.dget_dset_same|].
  split; [intros l ->; apply normalize_form in H1; discriminate|].
  split; [intros k Hk; apply BaseFacts.dget_dset_other; exact Hk|].
  unfold set_attr in *. cbn [pub prot ro with_pub]. revert H.
  destruct (is_private name || String.eqb name "list_dimensions"); [discriminate|].
  destruct (prot o && negb (hasattr o name)) eqn:E2; [discriminate|].
  assert (E3 : prot o && negb (hasattr (with_pub o (dset name w (pub o))) name) = false).
  { unfold hasattr, dmem. cbn. rewrite BaseFacts.dget_dset_same. cbn. apply andb_false_r. }
  rewrite E3. destruct (in_ro name (ro o) && prot o); [discriminate|].
  rewrite (BaseFacts.eqb_neq_s _ _ N), (normalize_idem _ _ H1). intros _.
  rewrite (BaseFacts.dset_same name w (dset name w (pub o))) by apply BaseFacts.dget_dset_same.
  destruct o; reflexivity.
Qed.
Print Assumptions C05_assignment_stores_normal_form.

(** strings and arrays are stored as they are; a rectangular nested list is
    stored with all elements in order, a single element as a scalar and several
    elements as an array with two axes at least *)
Theorem C05_stored_elements :
  forall o name v o' ev, name <> "protected" ->
  set_attr name v o = (o', ev, Ok tt) ->
  match v with
  | VStr _ _ | VArr _ => dget name (pub o') = Some v
  | VScal e => dget name (pub o') = Some (match e with EStr s => VStr true s | _ => VScal e end)
  | VList l =>
      forall s d k, rect s (VList l) d -> homogeneous k d ->
      match d, s with
      | [], _ => True
      | [EStr t], _ => dget name (pub o') = Some (VStr true t)
      | [e], _ => dget name (pub o') = Some (VScal e)
      | _, [n] => dget name (pub o') = Some (VArr (Arr k [1; n] d false))
      | _, _ => dget name (pub o') = Some (VArr (Arr k s d false))
      end
  end.
Proof.
  intros o name v o' ev N H.
  destruct (set_attr_Ok name v o o' ev tt H N) as [w [H1 [-> _]]]. cbn [pub with_pub].
  rewrite BaseFacts.dget_dset_same.
  destruct v as [b t|e|a|l].
  - injection H1 as <-. reflexivity.
  - destruct e; cbn in H1; injection H1 as <-; reflexivity.
  - injection H1 as <-. reflexivity.
  - intros s d k R G. destruct d as [|x d]; [exact I|].
    assert (H2 := normalize_rect s l (x :: d) k R G ltac:(discriminate)).
    rewrite H1 in H2. cbn [List.length hd Nat.eqb] in H2.
    assert (NS : s <> []) by (intros ->; inversion R).
    destruct d as [|y d].
    + cbn [List.length Nat.eqb] in H2. injection H2 as ->. destruct x; reflexivity.
    + cbn [List.length Nat.eqb] in H2. injection H2 as ->.
      destruct s as [|n [|m s]]; [destruct (NS eq_refl)| |]; destruct x; reflexivity.
Qed.
Print Assumptions C05_stored_elements.

(** a rectangular list of different numbers is stored as an array of the widest
    type (bool, int, float) that holds the same numbers in the same order *)
Theorem C05_mixed_numbers :
  forall o name l o' ev s d, name <> "protected" ->
  set_attr name (VList l) o = (o', ev, Ok tt) ->
  rect s (VList l) d -> (forall e, In e d -> plain_number e) -> 1 < List.length d ->
  dget name (pub o') =
    Some (VArr (Arr (widest d) (match s with [n] => [1; n] | _ => s end) (unified d) false)).
Proof.
  intros o name l o' ev s d N H R P L.
  destruct (set_attr_Ok name _ o o' ev tt H N) as [w [H1 [-> _]]]. cbn [pub with_pub].
  rewrite BaseFacts.dget_dset_same.
  rewrite (normalize_mixed s l d R P L) in H1. injection H1 as <-.
  destruct s as [|n [|m s]]; [inversion R|reflexivity|reflexivity].
Qed.
Print Assumptions C05_mixed_numbers.

Example C05_mixed_case :
  let v := VList [VScal (EInt 1%Z); VScal (EFlt (f_of_Z 2)); VScal (EBool true)] in
  let d := [EInt 1%Z; EFlt (f_of_Z 2); EBool true] in
  rect [3] v d /\ (forall e, In e d -> plain_number e)
  /\ unified d = [EFlt (f_of_Z 1); EFlt (f_of_Z 2); EFlt (f_of_Z 1)]
  /\ m_res (set_attr "Data_IR" v demo_sofa) = Ok tt.
Proof.
  split; [|split; [|split; vm_compute; reflexivity]].
  - apply (rect_cons [] _ [VScal (EFlt (f_of_Z 2)); VScal (EBool true)] [EInt 1%Z] [EFlt (f_of_Z 2); EBool true]); [constructor|].
    apply (rect_all_cons [] _ _ [EFlt (f_of_Z 2)] [EBool true]); [constructor|].
    apply (rect_all_cons [] _ _ [EBool true] []); constructor.
  - intros e [<-|[<-|[<-|[]]]]; reflexivity.
Qed.

Example C05_case :
  normalize (zl [1; 2; 3]%Z) = Ok (VArr (Arr KI [1; 3] [EInt 1; EInt 2; EInt 3]%Z false))
  /\ normalize (VList [zl [7%Z]]) = Ok (VScal (EInt 7%Z))
  /\ rect [1; 3] (VList [zl [1; 2; 3]%Z]) [EInt 1; EInt 2; EInt 3]%Z.
Proof.
  split; [vm_compute; reflexivity|]. split; [vm_compute; reflexivity|].
  apply (rect_cons [3] (zl [1; 2; 3]%Z) [] [EInt 1; EInt 2; EInt 3]%Z []); [|constructor].
  apply (rect_cons [] _ [VScal (EInt 2%Z); VScal (EInt 3%Z)] [EInt 1%Z] [EInt 2; EInt 3]%Z); [constructor|].
  apply (rect_all_cons [] _ _ [EInt 2%Z] [EInt 3%Z]); [constructor|].
  apply (rect_all_cons [] _ _ [EInt 3%Z] []); constructor.
Qed.

(** ** C06 *)

(** spelling of custom dimensions: the letters of the SOFA dimensions in upper
    case, all others in lower case *)
Definition spelled (d : string) : string :=
  smap (fun c => if has_char c "ermncis" then upper_char c
                 else if has_char c "ERMNCIS" then c else lower_char c) d.

Lemma spelled_spec d : smap custom_dim_char (upper d) = spelled d.
Proof.
  unfold spelled, upper. induction d as [|c d IH]; [reflexivity|].
  cbn [smap]. rewrite IH. f_equal. destruct c as [[|] [|] [|] [|] [|] [|] [|] [|]]; vm_compute; reflexivity.
Qed.

(** missing: entries known to the object's convention dictionary are not
    recorded as custom data although a deleted custom entry stays in this
    dictionary until the next verify, see [C06_refuted] *)
Theorem C06_add_exactly_one_partial :
  forall name v t d o o' ev, is_private name = false ->
  add_variable name v t d o = (o', ev, Ok tt) ->
  hasattr o name = false /\ prot o' = true /\ ro o' = ro o
  /\ exists w, normalize v = Ok w /\ pub o' = pub o ++ [(name, w)]
     /\ if dmem name (conv o)
        then conv o' = conv o /\ custom o' = custom o
        else exists e, conv o' = conv o ++ [(name, e)]
             /\ custom o' = Some (dset name e match custom o with Some c => c | None => [] end)
             /\ e_type e = t
             /\ e_dims e = option_map spelled d
             /\ e_flags e = None.
Proof.
  intros name v t d o o' ev HP H. assert (K := add_entry_ok name v t d o o' ev tt H HP).
  assert (D : option_map (fun d => smap custom_dim_char (upper d)) d = option_map spelled d)
    by (destruct d as [d|]; [cbn; rewrite spelled_spec|]; reflexivity).
  rewrite D in K. exact K.
Qed.
Print Assumptions C06_add_exactly_one_partial.

Theorem C06_add_attribute_exactly_one_partial :
  forall name v o o' ev, is_private name = false ->
  add_attribute name v o = (o', ev, Ok tt) ->
  hasattr o name = false /\ prot o' = true /\ ro o' = ro o
  /\ exists w, normalize v = Ok w /\ pub o' = pub o ++ [(name, w)]
     /\ if dmem name (conv o)
        then conv o' = conv o /\ custom o' = custom o
        else exists e, conv o' = conv o ++ [(name, e)]
             /\ custom o' = Some (dset name e match custom o with Some c => c | None => [] end)
             /\ e_type e = "attribute" /\ e_dims e = None /\ e_flags e = None.
Proof. intros name v o o' ev HP H. exact (add_entry_ok name v "attribute" None o o' ev tt H HP). Qed.
Print Assumptions C06_add_attribute_exactly_one_partial.

Example C06_case :
  m_res (add_variable "Temp" (zl [1; 2]%Z) "double" (Some "mr") demo_sofa) = Ok tt
  /\ option_map dkeys (custom (step demo demo_sofa (OAddVar "Temp" (zl [1; 2]%Z) "double" (Some "mr"))))
     = Some ["Temp"].
Proof. split; vm_compute; reflexivity. Qed.

(** adding, deleting and adding again: the entry is not recorded as custom data
    and the object can not be verified *)
Theorem C06_refuted :
  exists ops, let o := run demo demo_sofa ops in
    In "Temp" (dkeys (pub o)) /\ option_map dkeys (custom o) = Some []
    /\ prot o = true /\ ~ In "Temp" (dkeys (conv demo_sofa))
    /\ m_res (verify demo HReturn VWrite o) = Err (Exn EKeyError "Temp").
Proof.
  exists [OAddVar "Temp" (zl [1; 2]%Z) "double" (Some "MR"); ODel "Temp";
          OAddVar "Temp" (zl [1; 2]%Z) "double" (Some "MR")].
  cbv zeta. split; [vm_compute; intuition|]. split; [vm_compute; reflexivity|].
  split; [vm_compute; reflexivity|]. split; [vm_compute; intuition discriminate|].
  vm_compute. reflexivity.
Qed.
Print Assumptions C06_refuted.

(** ** C07 *)

(** missing: names Data_Variable_Attribute, see [C07_refuted] *)
Theorem C07_accepted_names_partial :
  forall name v t d o, is_private name = false -> is_ok (normalize v) = true ->
  ~ data_attribute name ->
  (m_res (add_variable name v t d o) = Ok tt <-> documented o name t d)
  /\ (forall e, m_res (add_variable name v t d o) = Err e -> exn_kind e = EValueError).
Proof.
  intros name v t d o HP HN HD.
  exact (conj (add_entry_accepts name v t d o HP HN HD)
              (fun e H => proj2 (add_entry_err name v t d o e HP HN H))).
Qed.
Print Assumptions C07_accepted_names_partial.

Example C07_case :
  documented demo_sofa "Temp" "double" (Some "MR")
  /\ documented demo_sofa "ListenerPosition_Comment" "attribute" None
  /\ m_res (add_attribute "Unknown_Units" (VStr false "metre") demo_sofa)
     = Err (Exn EValueError "Adding Attribute Unknown_Units requires variable Unknown").
Proof.
  split; [|split].
  - split; [vm_compute; reflexivity|]. left. split; [cbn; tauto|]. split; [reflexivity|discriminate].
  - split; [vm_compute; reflexivity|]. right. split; [reflexivity|].
    exists "ListenerPosition", "Comment". repeat split. right. split; [vm_compute; tauto|]. left; reflexivity.
  - vm_compute. reflexivity.
Qed.

(** the form of the documentation's example add_attribute("Data_Real_Units", ...)
    is rejected *)
Theorem C07_refuted :
  documented demo_sofa "Data_IR_ChannelOrdering" "attribute" None
  /\ exists m, m_res (add_attribute "Data_IR_ChannelOrdering" (VStr false "acn") demo_sofa)
     = Err (Exn EValueError m).
Proof.
  split.
  - split; [vm_compute; reflexivity|]. right. split; [reflexivity|].
    exists "Data_IR", "ChannelOrdering". repeat split. right. split; [vm_compute; tauto|].
    right. exists "IR". split; reflexivity.
  - eexists. vm_compute. reflexivity.
Qed.
Print Assumptions C07_refuted.

(** ** C08 *)

(** missing: values that can not be stored, see [C08_refuted] *)
Theorem C08_rejected_add_partial :
  forall name v t d o e, is_private name = false -> is_ok (normalize v) = true ->
  (m_res (add_variable name v t d o) = Err e -> add_variable name v t d o = (o, [], Err e))
  /\ (m_res (add_attribute name v o) = Err e -> add_attribute name v o = (o, [], Err e)).
Proof.
  intros name v t d o e HP HN.
  exact (conj (fun H => proj1 (add_entry_err name v t d o e HP HN H))
              (fun H => proj1 (add_entry_err name v "attribute" None o e HP HN H))).
Qed.
Print Assumptions C08_rejected_add_partial.

Example C08_case :
  is_ok (m_res (add_variable "Data_Foo" (zl [1; 2]%Z) "double" (Some "MR") demo_sofa)) = false
  /\ m_obj (add_variable "Data_Foo" (zl [1; 2]%Z) "double" (Some "MR") demo_sofa) = demo_sofa.
Proof. split; vm_compute; reflexivity. Qed.

(** a list that is not rectangular: the object is left unprotected and with a
    custom entry without value *)
Theorem C08_refuted :
  exists e, m_res (add_variable "Temp" ragged "double" (Some "MR") demo_sofa) = Err e
    /\ prot (m_obj (add_variable "Temp" ragged "double" (Some "MR") demo_sofa)) = false
    /\ option_map dkeys (custom (m_obj (add_variable "Temp" ragged "double" (Some "MR") demo_sofa)))
       = Some ["Temp"].
Proof. eexists. split; [vm_compute; reflexivity|]. split; vm_compute; reflexivity. Qed.
Print Assumptions C08_refuted.

(** ** C09 *)

Theorem C09_delete_exactly_one :
  forall name o o' ev, NoDup (dkeys (pub o)) -> del_attr name o = (o', ev, Ok tt) ->
  In name (dkeys (pub o))
  /\ pub o' = filter (fun kv => negb (String.eqb (fst kv) name)) (pub o)
  /\ conv o' = conv o /\ ro o' = ro o /\ prot o' = prot o
  /\ custom o' = option_map (ddel name) (custom o) /\ ev = [].
Proof. intros name o o' ev ND H. exact (del_attr_ok name o o' ev tt H ND). Qed.
Print Assumptions C09_delete_exactly_one.

Theorem C09_delete_iff :
  forall name o, prot o = true -> is_private name = false ->
  (m_res (del_attr name o) = Ok tt <->
   In name (dkeys (pub o))
   /\ exists e, dget name (conv o) = Some e /\ is_mandatory (e_flags e) = false).
Proof. exact del_attr_iff. Qed.
Print Assumptions C09_delete_iff.

Example C09_case :
  m_res (del_attr "RoomTemperature" demo_sofa) = Ok tt
  /\ is_ok (m_res (del_attr "Data_IR" demo_sofa)) = false.
Proof. split; vm_compute; reflexivity. Qed.

(** ** C10 *)

Theorem C10_rearmed :
  (forall name v t d o o' ev, is_private name = false ->
     add_variable name v t d o = (o', ev, Ok tt) -> prot o' = true)
  /\ (forall name v o o' ev, is_private name = false ->
     add_attribute name v o = (o', ev, Ok tt) -> prot o' = true)
  /\ (forall E a b c o o' ev, add_missing E a b c o = (o', ev, Ok tt) -> prot o' = true)
  /\ (forall E c v sv t id vo o o' ev, apply_upgrade E c v sv t id vo o = (o', ev, Ok tt) -> prot o' = true).
Proof.
  refine (conj _ (conj _ (conj _ _))).
  - intros name v t d o o' ev HP H. exact (proj1 (proj2 (add_entry_ok name v t d o o' ev tt H HP))).
  - intros name v o o' ev HP H. exact (proj1 (proj2 (add_entry_ok name v "attribute" None o o' ev tt H HP))).
  - intros E a b c o o' ev. exact (add_missing_prot E a b c o o' ev tt).
  - intros E c v sv t id vo o o' ev. exact (apply_upgrade_prot E c v sv t id vo o o' ev tt).
Qed.
Print Assumptions C10_rearmed.

Example C10_case :
  let o := with_prot demo_sofa false in
  m_res (add_missing demo true true false o) = Ok tt
  /\ prot (m_obj (add_missing demo true true false o)) = true.
Proof. split; vm_compute; reflexivity. Qed.
