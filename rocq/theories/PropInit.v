(** C24-C29: creating objects, version selection, add_missing. *)
From Verif Require Import Base PyStr PyNum NdArray Sofa Verify Upgrade Demo
  SpecAttr SpecInit DemoFacts BaseFacts AttrFacts OpFacts InitFacts ProtFacts MissingFacts.
From Coq Require Import ZArith.
Open Scope string_scope.
Open Scope list_scope.

(** ** C24 *)

Theorem C24_new_object_content :
  forall E c mandatory version vo ev o, db_ok E ->
  sofa_init E c mandatory version vo = (ev, Ok o) ->
  exists v content, has_file E c v content
    /\ (version <> "latest" -> v = version)
    /\ new_content E (sofar_keys content) mandatory (pub o)
    /\ prot o = true
    /\ (forall k x, clean_key k -> In k (dkeys (pub o)) -> is_ok (normalize x) = true ->
        (m_res (set_attr k x o) <> Ok tt <->
         exists e, dget k (sofar_keys content) = Some e /\ is_read_only (e_flags e) = true)).
Proof.
  intros E c mandatory version vo ev o DB HI.
  destruct (armed_init E c mandatory version vo ev o DB HI) as [v [A [P [HL [NC [RO [CU HV]]]]]]].
  assert (NL : v <> "latest").
  { destruct (load_own_version _ _ _ _ DB HL) as [v' [L1 [L2 [_ [_ L4]]]]].
    destruct (String.eqb_spec version "latest") as [->|N]; [|rewrite (HV N); exact N].
    destruct (ar_version _ _ _ _ _ A) as [b AV].
    destruct (states_own_stored _ _ _ _ _ _ L4 NC eq_refl) as [b' AV'].
    rewrite AV in AV'. inversion AV'; subst v'.
    destruct (load_convention_file _ _ _ _ L1) as [f [F1 [F2 [F3 _]]]].
    destruct (file_ok_prefix f c (proj2 DB f F1) F2) as [v2 [W1 [W2 [_ [W3 [_ [_ [_ W4]]]]]]]].
    rewrite <- F3 in W4. destruct (states_own_stored _ _ _ _ _ _ W4 NC eq_refl) as [b2 AV2].
    rewrite AV in AV2. inversion AV2; subst. exact W3. }
  destruct (load_has_file E c v (conv o) DB NL (ar_load _ _ _ _ _ A)) as [content [HF EC]].
  exists v, content. rewrite <- EC. split; [exact HF|]. split; [exact HV|]. split; [exact NC|].
  split; [exact P|]. intros k x [K1 [K2 K3]] IN NX.
  assert (RX : in_ro k (ro o) = true <-> exists e, dget k (conv o) = Some e /\ is_read_only (e_flags e) = true).
  { rewrite RO. apply ro_exact.
    - destruct (ar_name_ro _ _ _ _ _ A) as [e [X [_ Y]]]; eauto.
    - destruct (ar_version_ro _ _ _ _ _ A) as [e [X [_ Y]]]; eauto.
    - eapply load_convention_NoDup; exact HL. }
  rewrite <- RX. unfold set_attr. rewrite K1, (eqb_neq_s _ _ K2), P. cbn [orb andb].
  assert (HA : hasattr o k = true) by (unfold hasattr; apply dmem_In in IN; rewrite IN; reflexivity).
  rewrite HA. cbn [negb]. rewrite andb_true_r, (eqb_neq_s _ _ K3).
  destruct (in_ro k (ro o)); [cbn; split; [reflexivity|discriminate]|].
  destruct (normalize x) as [w|]; [|discriminate]. cbn. split; [congruence|discriminate].
Qed.
Print Assumptions C24_new_object_content.

Example C24_case :
  db_ok demo /\ is_ok (snd (sofa_init demo "SimpleFreeFieldHRIR" true "1.0" VAuto)) = true
  /\ dget "RoomTemperature" (pub demo_sofa) = Some (zi 0%Z)
  /\ dget "GLOBAL_DateCreated" (pub demo_sofa) = Some (VStr false "2024-01-01 00:00:00").
Proof. split; [exact demo_db_ok|]. repeat split; vm_compute; reflexivity. Qed.

(** ** C25 *)

(** a requested version is loaded from the file of exactly this convention and
    version; ValueError if there is none *)
Theorem C25_requested_version :
  forall E c mandatory version vo, db_ok E -> version <> "latest" ->
  (forall ev o, sofa_init E c mandatory version vo = (ev, Ok o) ->
     exists content b, has_file E c version content /\ conv o = sofar_keys content
       /\ dget "GLOBAL_SOFAConventionsVersion" (pub o) = Some (VStr b version))
  /\ ((forall content, ~ has_file E c version content) ->
      exists m, sofa_init E c mandatory version vo = ([], Err (Exn EValueError m))).
Proof.
  intros E c mandatory version vo DB N. split.
  - intros ev o HI.
    destruct (armed_init E c mandatory version vo ev o DB HI) as [v [A [P [HL [NC [RO [CU HV]]]]]]].
    rewrite (HV N) in A. destruct (load_has_file E c version (conv o) DB N HL) as [content [HF EC]].
    destruct (ar_version _ _ _ _ _ A) as [b AV]. exists content, b. auto.
  - intro H. destruct (load_version E c version DB N) as [_ L]. destruct (L H) as [m HL].
    exists m. unfold sofa_init. rewrite HL. reflexivity.
Qed.
Print Assumptions C25_requested_version.

(** 'latest' loads a version that no available version exceeds (as numbers);
    ValueError if there is no file of the convention *)
Theorem C25_latest :
  forall E c mandatory vo, db_ok E ->
  (forall ev o, sofa_init E c mandatory "latest" vo = (ev, Ok o) ->
     exists v b content d, has_file E c v content /\ conv o = sofar_keys content
       /\ dget "GLOBAL_SOFAConventionsVersion" (pub o) = Some (VStr b v)
       /\ parse_float v = Some d
       /\ forall v' content', has_file E c v' content' ->
            exists d', parse_float v' = Some d' /\ dec_ltb d d' = false)
  /\ ((forall v content, ~ has_file E c v content) ->
      exists m, sofa_init E c mandatory "latest" vo = ([], Err (Exn EValueError m))).
Proof.
  intros E c mandatory vo DB. destruct (load_latest E c DB) as [L1 L2]. split.
  - intros ev o HI.
    destruct (armed_init E c mandatory "latest" vo ev o DB HI) as [v [A [P [HL [NC [RO [CU _]]]]]]].
    destruct (load_convention_file _ _ _ _ HL) as [f [F1 [F2 _]]].
    destruct (file_ok_prefix f c (proj2 DB f F1) F2) as [v0 [W1 _]].
    destruct L1 as [v1 [content [d [H1 [H2 [H3 H4]]]]]].
    { exists v0, (snd f). unfold has_file, file_name. rewrite <- W1. destruct f; exact F1. }
    rewrite HL in H2. inversion H2 as [EC].
    destruct (file_ok_prefix _ c (proj2 DB _ H1) (has_file_prefix _ _ _ _ H1)) as [v2 [V1 [V2 [_ [_ [_ [_ [_ V3]]]]]]]].
    destruct (has_file_version E c v1 content DB H1) as [V4 _]. cbn [fst snd] in *.
    assert (E21 : v2 = v1) by congruence. rewrite E21, <- EC in V3.
    destruct (states_own_stored _ _ _ _ _ _ V3 NC eq_refl) as [b AV].
    exists v1, b, content, d. auto.
  - intro H. destruct (L2 H) as [m HL]. exists m. unfold sofa_init. rewrite HL. reflexivity.
Qed.
Print Assumptions C25_latest.

Example C25_case :
  has_file demo "SimpleFreeFieldHRIR" "0.4" (hrir "0.4")
  /\ dget "GLOBAL_SOFAConventionsVersion" (pub demo_sofa) = Some (VStr false "1.0")
  /\ is_ok (snd (sofa_init demo "SimpleFreeFieldHRIR" false "0.4" VAuto)) = true
  /\ is_ok (snd (sofa_init demo "SimpleFreeFieldHRIR" false "0.3" VAuto)) = false.
Proof. split; [right; left; reflexivity|]. repeat split; vm_compute; reflexivity. Qed.

(** ** C26 *)

(** missing: versions with more than one digit after the point *)
Theorem C26_latest_is_newest_partial :
  forall E c mandatory vo ev o, db_ok E ->
  sofa_init E c mandatory "latest" vo = (ev, Ok o) ->
  (forall v content, has_file E c v content -> short_version v) ->
  exists v b, dget "GLOBAL_SOFAConventionsVersion" (pub o) = Some (VStr b v)
    /\ forall v' content', has_file E c v' content' -> version_ltb v v' = Ok false.
Proof.
  intros E c mandatory vo ev o DB HI S.
  destruct (proj1 (C25_latest E c mandatory vo DB) ev o HI) as [v [b [content [d [H1 [_ [H3 [H4 H5]]]]]]]].
  exists v, b. split; [exact H3|]. intros v' content' H'. destruct (H5 v' content' H') as [d' [D1 D2]].
  rewrite (short_version_order v v' d d' (S _ _ H1) (S _ _ H') H4 D1), D2. reflexivity.
Qed.
Print Assumptions C26_latest_is_newest_partial.

(** versions 1.9 and 1.11: Sofa(...) loads 1.9, which is older *)
Definition two_versions : env :=
  Env [("SimpleFreeFieldHRIR_1.9.json", hrir "1.9"); ("SimpleFreeFieldHRIR_1.11.json", hrir "1.11")]
      demo_rules demo_aliases [] [] (fun _ => "?") (fun _ => "") "now" "sofar" "3".
Theorem C26_refuted :
  db_ok two_versions
  /\ exists o, sofa_init two_versions "SimpleFreeFieldHRIR" false "latest" VAuto = ([], Ok o)
     /\ dget "GLOBAL_SOFAConventionsVersion" (pub o) = Some (VStr false "1.9")
     /\ has_file two_versions "SimpleFreeFieldHRIR" "1.11" (hrir "1.11")
     /\ version_ltb "1.9" "1.11" = Ok true.
Proof.
  split.
  - split; [repeat constructor; cbn; intuition discriminate|].
    intros f [<-|[<-|[]]].
    + exists "SimpleFreeFieldHRIR", "1.9". repeat split; try reflexivity; try discriminate.
      * vm_compute. intuition discriminate.
      * do 2 eexists. repeat split; reflexivity.
      * do 2 eexists. repeat split; reflexivity.
    + exists "SimpleFreeFieldHRIR", "1.11". repeat split; try reflexivity; try discriminate.
      * vm_compute. intuition discriminate.
      * do 2 eexists. repeat split; reflexivity.
      * do 2 eexists. repeat split; reflexivity.
  - eexists. split; [vm_compute; reflexivity|]. split; [vm_compute; reflexivity|].
    split; [right; left; reflexivity|vm_compute; reflexivity].
Qed.
Print Assumptions C26_refuted.

Example C26_case : short_version "1.0" /\ short_version "0.4" /\ version_ltb "1.0" "0.4" = Ok false.
Proof.
  split; [exists "1", "0"%char, 1%N; repeat split; reflexivity|].
  split; [exists "0", "4"%char, 0%N; repeat split; reflexivity|reflexivity].
Qed.

(** ** C27 *)

(** [w] requested: mandatory entries if [m], others if [p] *)
Definition requested (m p : bool) (e : entry) : bool :=
  if is_mandatory (e_flags e) then m else p.

Theorem C27_add_missing :
  forall E m p b o o' ev, add_missing E m p b o = (o', ev, Ok tt) ->
  ~ In "protected" (dkeys (conv o')) ->
  (* contained entries keep their value *)
  (forall k w, dget k (pub o) = Some w -> dget k (pub o') = Some w)
  (* requested entries of the convention are contained, new ones with default values *)
  /\ (forall k e, dget k (conv o') = Some e -> requested m p e = true ->
        In k (dkeys (pub o'))
        /\ (dget k (pub o) = None ->
            exists w, dget k (pub o') = Some w /\ added_default e w))
  (* nothing else is added *)
  /\ (forall k, In k (dkeys (pub o')) ->
        In k (dkeys (pub o)) \/ exists e, dget k (conv o') = Some e /\ requested m p e = true)
  (* a second call adds nothing *)
  /\ add_missing E m p b o' =
       (o', if b then [EvPrint "All mandatory data contained."] else [], Ok tt).
Proof.
  intros E m p b o o' ev H NP. destruct (add_missing_Ok E m p b o o' ev tt H) as [o1 [R [C [U K]]]].
  rewrite C in NP. destruct (K NP) as [K1 [K2 [K3 [K4 [K5 K6]]]]].
  assert (RW : forall e, requested m p e = wanted m p e).
  { intro e. unfold requested, wanted. destruct (is_mandatory (e_flags e)), m, p; reflexivity. }
  rewrite C. split; [exact K3|]. split; [|split; [|exact K6]].
  - intros k e HK HR. rewrite RW in HR. destruct (dget k (pub o)) as [w|] eqn:DK.
    + split; [apply dget_Some_In; exists w; apply K3; exact DK|discriminate].
    + destruct (K4 k e HK HR DK) as [w [W1 W2]]. split; [apply dget_Some_In; eauto|].
      intros _. exists w. split; [exact W1|apply normalize_added; exact W2].
  - intros k HI. destruct (dget k (pub o)) as [w|] eqn:DK; [left; apply dget_Some_In; eauto|].
    right. destruct (dget k (conv o1)) as [e|] eqn:CK.
    + exists e. split; [reflexivity|]. rewrite RW. destruct (wanted m p e) eqn:W; [reflexivity|].
      exfalso. apply (dget_None k (pub o')); [|exact HI]. apply K5; [exact DK|]. intros e' HE. congruence.
    + exfalso. apply (dget_None k (pub o')); [|exact HI]. apply K5; [exact DK|]. intros e' HE. congruence.
Qed.
Print Assumptions C27_add_missing.

(** the convention used is the one stated by the object, extended by the custom
    entries of the object; and the call succeeds after any history of a new
    object *)
Theorem C27_uses_the_convention_of_the_object :
  forall E c mandatory version vo ev o ops m p b, db_ok E -> db_tidy E ->
  sofa_init E c mandatory version vo = (ev, Ok o) -> Forall safe_op ops ->
  exists o' ev', add_missing E m p b (run E o ops) = (o', ev', Ok tt)
    /\ (forall k e, dget k (conv o) = Some e -> dget k (conv o') = Some e)
    /\ (forall k e, dget k (conv o') = Some e -> is_mandatory (e_flags e) = true ->
          dget k (conv o) = Some e).
Proof.
  intros E c mandatory version vo ev o ops m p b D T I S.
  assert (A0 := C24_new_object_content E c mandatory version vo ev o D I).
  destruct (armed_init E c mandatory version vo ev o D I) as [v [A [P [_ [NC [_ [C _]]]]]]].
  assert (TO : tidy o) by (intros cu ke H; rewrite C in H; discriminate).
  assert (PR := protected_run_safe E o ops T TO P S).
  destruct (run_kept E c v (conv o) ops o A PR) as [A' _].
  assert (TO' : tidy (run E o ops)).
  { clear -T TO S. revert o TO. unfold run. induction S as [|x l H S IH]; intros o TO; [exact TO|].
    cbn [fold_left]. apply IH. apply step_tidy; assumption. }
  assert (NL : v <> "latest").
  { destruct A0 as [v1 [content [HF [_ [NC1 _]]]]].
    destruct (file_ok_prefix _ c (proj2 D _ HF) (has_file_prefix _ _ _ _ HF)) as [v2 [V1 [V2 [_ [V3 [_ [_ [_ V4]]]]]]]].
    cbn [fst snd] in *. destruct (states_own_stored _ _ _ _ _ _ V4 NC1 eq_refl) as [b1 AV].
    destruct (ar_version _ _ _ _ _ A) as [b2 AV2]. rewrite AV in AV2. inversion AV2; subst. exact V3. }
  assert (OKM := add_missing_succeeds E m p b (run E o ops) c v (conv o) D T TO' A' NL).
  destruct (add_missing E m p b (run E o ops)) as [[o' ev'] r] eqn:EM. cbn in OKM. subst r.
  exists o', ev'. split; [reflexivity|].
  destruct (add_missing_Ok _ _ _ _ _ _ _ _ EM) as [o1 [R [C1 _]]].
  destruct (armed_reset _ _ _ _ _ _ A' R) as [A1 _]. rewrite C1. split.
  - apply (ar_sub _ _ _ _ _ A1).
  - intros k e HK HM. apply (ar_sup _ _ _ _ _ A1 k e HK). intro F. rewrite F in HM. discriminate.
Qed.
Print Assumptions C27_uses_the_convention_of_the_object.

Example C27_case :
  let o := m_obj (del_attr "RoomTemperature" demo_sofa) in
  m_res (add_missing demo true true true o) = Ok tt
  /\ dget "RoomTemperature" (pub o) = None
  /\ dget "RoomTemperature" (pub (m_obj (add_missing demo true true true o))) = Some (zi 0%Z)
  /\ dget "RoomTemperature" (pub (m_obj (add_missing demo true false true o))) = None.
Proof. repeat split; vm_compute; reflexivity. Qed.

(** ** C28 *)

(** missing: the number of dimensions. The value added has the elements of the
    value in a new object in the same order; it is identical unless the default
    is a list that is declared with other than two dimensions or has a single
    element. *)
Theorem C28_add_missing_restores_partial :
  forall E c v vo ev new o b1 b2 m p b o' ev' k e, db_ok E -> v <> "latest" ->
  sofa_init E c false v vo = (ev, Ok new) ->
  dget "GLOBAL_SOFAConventions" (pub o) = Some (VStr b1 c) ->
  dget "GLOBAL_SOFAConventionsVersion" (pub o) = Some (VStr b2 v) ->
  ~ In "protected" (dkeys (conv o')) ->
  add_missing E m p b o = (o', ev', Ok tt) ->
  dget k (conv new) = Some e -> requested m p e = true -> json_value (e_default e) = true ->
  dget k (creation_entries E) = None -> dget k (pub o) = None ->
  exists w1 w2, dget k (pub new) = Some w1 /\ dget k (pub o') = Some w2
    /\ same_elements w1 w2
    /\ ((forall l, e_default e <> VList l) -> w1 = w2)
    /\ (forall d a, e_dims e = Some d -> String.length (hd "" (split ", " d)) = 2 ->
        np_array (e_default e) = Ok a -> List.length (a_data a) <> 1 -> w1 = w2).
Proof.
  intros E c v vo ev new o b1 b2 m p b o' ev' k e DB N HI G1 G2 NP HA HK HR J HC HN.
  destruct (armed_init E c false v vo ev new DB HI) as [v' [A [_ [HL _]]]].
  destruct (add_missing_Ok E m p b o o' ev' tt HA) as [o1 [R [C [_ K]]]].
  rewrite C in NP. destruct (K NP) as [_ [_ [_ [K4 _]]]].
  assert (X : dget k (conv o1) = Some e).
  { destruct (reset_convention_cases E o) as [[x R']|[c' [bb [vv [cv [X1 [X2 [_ [X4 R']]]]]]]]];
      rewrite R in R'; [discriminate|].
    rewrite G1 in X1. inversion X1; subst. rewrite G2 in X2. inversion X2; subst. cbn in X4.
    rewrite HL in X4. inversion X4; subst cv. clear X4.
    destruct (custom o) as [cu|]; inversion R'; subst; cbn [conv with_custom with_conv]; [|exact HK].
    rewrite dget_dupdate_keep by (eapply load_convention_NoDup; exact HL). rewrite HK. reflexivity. }
  assert (W : wanted m p e = true).
  { revert HR. unfold requested, wanted. destruct (is_mandatory (e_flags e)), m, p; auto. }
  destruct (K4 k e X W HN) as [w2 [W1 W2]].
  destruct (init_stored E c false v vo ev new DB HI k e HC HK) as [w1 [V1 V2]].
  { apply orb_true_r. }
  exists w1, w2. split; [exact V1|]. split; [exact W1|]. apply defaults_same; assumption.
Qed.
Print Assumptions C28_add_missing_restores_partial.

(** ReceiverPosition is (2, 3, 1) in a new object but (2, 3) if added *)
Theorem C28_refuted :
  let o := m_obj (del_attr "ReceiverPosition" (with_prot demo_sofa false)) in
  let o' := m_obj (add_missing demo true true false o) in
  exists a a', dget "ReceiverPosition" (pub demo_sofa) = Some (VArr a)
    /\ dget "ReceiverPosition" (pub o) = None
    /\ dget "ReceiverPosition" (pub o') = Some (VArr a')
    /\ a_shape a = [2; 3; 1] /\ a_shape a' = [2; 3].
Proof.
  intros o o'. do 2 eexists.
  split; [vm_compute; reflexivity|]. split; [vm_compute; reflexivity|].
  split; [vm_compute; reflexivity|]. split; vm_compute; reflexivity.
Qed.
Print Assumptions C28_refuted.

Example C28_case :
  let o := m_obj (del_attr "Data_Delay" (with_prot demo_sofa false)) in
  let o' := m_obj (add_missing demo true true false o) in
  dget "Data_Delay" (pub o) = None
  /\ dget "Data_Delay" (pub o') = dget "Data_Delay" (pub demo_sofa).
Proof. split; vm_compute; reflexivity. Qed.

(** ** C29 *)

Theorem C29_python_names :
  forall E c version cv, load_convention E c version = Ok cv ->
  (forall k, In k (dkeys cv) -> has_char ":" k = false /\ has_char "." k = false)
  /\ exists f, In f (db E) /\ startswith (c +++ "_") (fst f) = true /\
     (NoDup (map python_name (dkeys (snd f))) ->
      cv = map (fun ke => (python_name (fst ke), snd ke)) (snd f)).
Proof.
  intros E c version cv H. destruct (load_convention_file _ _ _ _ H) as [f [F1 [F2 [-> _]]]].
  split; [intro k; apply sofar_keys_clean|]. exists f. split; [exact F1|]. split; [exact F2|apply sofar_keys_all].
Qed.
Print Assumptions C29_python_names.

Example C29_case :
  NoDup (map python_name (dkeys (hrir "1.0")))
  /\ python_name "Data.SamplingRate:Units" = "Data_SamplingRate_Units".
Proof. split; [vm_compute; repeat constructor; cbn; intuition discriminate|reflexivity]. Qed.
