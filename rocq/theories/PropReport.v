(** C67-C70: what users are told. *)
From Verif Require Import Base PyStr PyNum NdArray Sofa Verify Upgrade Utils Io Demo
  SpecAttr SpecInit SpecValue SpecVerify SpecUpgrade SpecEquals SpecIo
  BaseFacts StrFacts AttrFacts OpFacts InitFacts ProtFacts AddDelFacts MissingFacts CoreFacts ValidFacts VerifyFacts
  DictFacts DimFacts IssueFacts DemoFacts UpgradeFacts EqualsFacts WriteFacts ReadFacts IoFacts AgainFacts
  PropVerify PropInit PropIo SpecReport ReportFacts.
From Coq Require Import ZArith Lia.
Open Scope string_scope.
Open Scope list_scope.
Open Scope nat_scope.

(** ** C67 *)

(** missing: versions with more than one digit after the point *)
Theorem C67_outdated_data_reported_partial :
  forall E name o s s' o' ev b c b2 v, db_ok E ->
  write_sofa E name o s = (s', (o', ev, Ok tt)) ->
  dget "GLOBAL_SOFAConventions" (pub o) = Some (VStr b c) -> c <> "invalid-value" ->
  dget "GLOBAL_SOFAConventionsVersion" (pub o) = Some (VStr b2 v) ->
  (forall v' content, has_file E c v' content -> short_version v') ->
  prints ev = []
  /\ (newer_version E c v -> filter (startswith "Writing") (warnings ev) = [outdated_text v])
  /\ (~ newer_version E c v -> filter (startswith "Writing") (warnings ev) = []).
Proof.
  intros E name o s s' o' ev b c b2 v DB H GC NI GV SV.
  destruct (write_sofa_cases E name o s) as [[o1 [ev1 [e X]]]|[o1 [ev1 [p [f [r [X [_ [_ Y]]]]]]]]]; [congruence|].
  rewrite Y in H. injection H as _ -> -> _. clear Y.
  apply outdated_usual in X. destruct X as [ev1 [ev2 [r1 [u [W [V ->]]]]]].
  assert (U2 := says_ok usual _ _ _ _ _ (verify_usual E VWrite) V).
  destruct (warn_version_Ok E o ev1 u b c GC NI W) as [ev0 [l [b1 [b3 [v3 [w [old [SI [GL [GO [VL ->]]]]]]]]]]].
  assert (v3 = v) by congruence. subst v3.
  assert (U0 := init_usual E c false "latest" VAuto). rewrite SI in U0. cbn [fst] in U0.
  rewrite !prints_app, !warnings_app, !filter_app, (usual_printed _ U0), (usual_printed _ U2), (usual_writing _ U0), (usual_writing _ U2).
  rewrite app_nil_r. cbn [app].
  destruct (proj1 (C25_latest E c false VAuto DB) ev0 l SI) as [w' [b4 [content [d [H1 [_ [H3 [H4 H5]]]]]]]].
  assert (w' = w) by congruence. subst w'.
  assert (HF : exists cv, has_file E c v cv).
  { destruct (raise_ok_core _ _ _ _ _ _ V) as [o2 [e1 [w2 [a [d2 [R _]]]]]].
    destruct (reset_convention_cases E o) as [[x R']|[c' [bb [v' [cv [X1 [X2 [_ [X4 _]]]]]]]]]; [rewrite R' in R; discriminate R|].
    assert (c' = c) by congruence. assert (v' = VStr b2 v) by congruence. subst c' v'. cbn [py_str] in X4.
    destruct (string_dec v "latest") as [->|NL].
    - unfold version_ltb in VL. vm_compute in VL. discriminate VL.
    - destruct (load_has_file E c v cv DB NL X4) as [ct [HF _]]. exists ct. exact HF. }
  destruct HF as [cv HF]. destruct (H5 v cv HF) as [dv [P1 P2]].
  rewrite (short_version_order v w dv d (SV _ _ HF) (SV _ _ H1) P1 H4) in VL. injection VL as VL.
  split; [destruct old; reflexivity|]. split.
  - intros [v' [ct [HF' L']]]. destruct (H5 v' ct HF') as [d' [P1' P2']].
    rewrite (short_version_order v v' dv d' (SV _ _ HF) (SV _ _ HF') P1 P1') in L'. injection L' as L'.
    assert (O : old = true).
    { destruct old; [reflexivity|]. assert (X := dec_ge_trans _ _ _ VL P2'). congruence. }
    rewrite O. reflexivity.
  - intro N. destruct old; [|reflexivity]. exfalso. apply N. exists w, content. split; [exact H1|].
    rewrite (short_version_order v w dv d (SV _ _ HF) (SV _ _ H1) P1 H4). rewrite VL. reflexivity.
Qed.
Print Assumptions C67_outdated_data_reported_partial.

Definition old_hrir : sofa :=
  match sofa_init demo "SimpleFreeFieldHRIR" false "0.4" VAuto with (_, Ok o) => o | _ => empty_sofa end.
Definition warned_when_written (E : env) (o : sofa) : list string :=
  filter (startswith "Writing") (warnings (m_out (snd (write_sofa E "new" o disk)))).

Example C67_case :
  is_ok (m_res (snd (write_sofa demo "new" old_hrir disk))) = true
  /\ newer_version demo "SimpleFreeFieldHRIR" "0.4"
  /\ ~ newer_version demo "SimpleFreeFieldHRIR" "1.0"
  /\ (forall v content, has_file demo "SimpleFreeFieldHRIR" v content -> short_version v)
  /\ warned_when_written demo old_hrir = [outdated_text "0.4"]
  /\ is_ok (m_res (snd (write_sofa demo "new" demo_sofa disk))) = true
  /\ warned_when_written demo demo_sofa = [].
Proof.
  assert (V : forall v content, has_file demo "SimpleFreeFieldHRIR" v content -> v = "1.0" \/ v = "0.4").
  { intros v content H. assert (F := proj1 (has_file_version demo _ v content demo_db_ok H)). unfold has_file in H.
    cbn [db demo In] in H. destruct H as [H|[H|[H|[]]]]; apply (f_equal fst) in H; cbn [fst] in H; rewrite <- H in F;
      vm_compute in F; [left|right|discriminate H]; symmetry; exact F. }
  split; [vm_compute; reflexivity|]. split.
  { exists "1.0", (hrir "1.0"). split; [left; reflexivity|vm_compute; reflexivity]. }
  split.
  { intros [v [ct [H L]]]. destruct (V v ct H) as [->| ->]; vm_compute in L; discriminate L. }
  split.
  { intros v ct H. destruct (V v ct H) as [->| ->]; [exists "1", "0"%char, 1%N|exists "0", "4"%char, 0%N]; repeat split. }
  split; [vm_compute; reflexivity|]. split; vm_compute; reflexivity.
Qed.

(** versions 1.9 and 1.11: version 1.9 is written without the warning *)
Definition hrir_19 : sofa :=
  match sofa_init two_versions "SimpleFreeFieldHRIR" false "1.9" VAuto with (_, Ok o) => o | _ => empty_sofa end.
Theorem C67_refuted :
  db_ok two_versions
  /\ dget "GLOBAL_SOFAConventionsVersion" (pub hrir_19) = Some (VStr false "1.9")
  /\ newer_version two_versions "SimpleFreeFieldHRIR" "1.9"
  /\ is_ok (m_res (snd (write_sofa two_versions "new" hrir_19 disk))) = true
  /\ warned_when_written two_versions hrir_19 = [].
Proof.
  split; [exact (proj1 C26_refuted)|]. split; [vm_compute; reflexivity|]. split.
  - exists "1.11", (hrir "1.11"). split; [right; left; reflexivity|vm_compute; reflexivity].
  - split; vm_compute; reflexivity.
Qed.
Print Assumptions C67_refuted.

(** ** C68 *)

(** missing: names of methods and properties of the class *)
Theorem C68_custom_data_reported_partial :
  forall E s name vo verbose ev f p c v cv, db_ok E ->
  file_at s name f -> file_wf f -> NoDup (file_names f) ->
  (forall k, In k (file_names f) -> ~ In k class_attrs) ->
  file_text f "SOFAConventions" = Ok c -> file_text f "SOFAConventionsVersion" = Ok v ->
  load_convention E c v = Ok cv ->
  read_sofa E s name vo verbose = (ev, Ok p) ->
  (* printed: data that are not part of the convention *)
  prints ev = (if verbose then match foreign E cv f with [] => [] | l => [foreign_text l] end else [])
  (* these are the custom data of the object *)
  /\ (forall k, In k (foreign E cv f) <-> exists cu, custom p = Some cu /\ In k (dkeys cu))
  (* warnings for all variables with missing data *)
  /\ filter (startswith "Entry") (warnings ev) = map missing_text (missing_names f).
Proof.
  intros E s name vo verbose ev f p c v cv DB FA WF ND NC FC FV LC H.
  destruct (C34_exact_content E s name vo verbose ev f p FA WF ND H) as [_ SA _ _].
  apply read_said in H.
  destruct H as [f' [c' [v' [ev0 [o [q [ev1 [cu [ev2 [FA' [FC' [FV' [SI [RC [U2 [PQ ->]]]]]]]]]]]]]]]].
  assert (f' = f) by (apply open_file_Ok in FA; apply open_file_Ok in FA'; congruence). subst f'.
  assert (c' = c) by congruence. assert (v' = v) by congruence. subst c' v'.
  destruct (armed_init E c false v vo ev0 o DB SI) as [w [_ [_ [LO [NW [_ [CO _]]]]]]].
  assert (conv o = cv) by congruence. subst cv.
  assert (U0 := init_usual E c false v vo). rewrite SI in U0. cbn [fst] in U0.
  assert (DO := init_dicts _ _ _ _ _ _ _ SI).
  destruct (read_content_Ok _ _ _ _ _ WF (proj1 DO) RC) as [its [FI [_ [_ [QE [-> ->]]]]]].
  assert (NM := items_names f its FI).
  assert (NDi : NoDup (map i_name its)) by (rewrite NM; exact ND).
  assert (FE : snd (snd (enter its (start o))) = foreign E (conv o) f).
  { rewrite enter_new; [|exact NDi|rewrite NM; exact NC]. cbn [start fst snd app]. rewrite NM. unfold foreign.
    apply filter_ext_in. intros k _. cbn [pub with_prot]. rewrite (new_contains E (conv o) _ k NW). apply negb_orb. }
  rewrite FE. destruct (var_events_said (nf_vars f)) as [VP VW].
  split; [|split].
  - rewrite !prints_app, (usual_printed _ U0), (usual_printed _ U2), VP, app_nil_r. cbn [app].
    destruct verbose; [|reflexivity]. destruct (foreign E (conv o) f); reflexivity.
  - assert (CQ : forall k, In k (foreign E (conv o) f) <-> dget k (customs q) <> None).
    { intro k. destruct (read_decl o its q NDi CO QE) as [R1 [R2 [R3 _]]].
      assert (FN : In k (foreign E (conv o) f) <-> In k (file_names f) /\ is_new o k = true).
      { unfold foreign. rewrite filter_In. split; intros [I N]; (split; [exact I|]).
        - unfold is_new, hasattr. rewrite (new_contains E (conv o) _ k NW).
          rewrite (proj2 (smem_false k class_attrs) (NC k I)), orb_false_r, <- smem_dmem.
          apply andb_true_iff in N. destruct N as [N1 N2]. apply negb_true_iff in N1. apply negb_true_iff in N2. rewrite N1, N2. reflexivity.
        - unfold is_new, hasattr in N. rewrite (new_contains E (conv o) _ k NW) in N.
          apply andb_true_iff in N. destruct N as [N1 _]. apply negb_true_iff in N1. apply orb_false_iff in N1. destruct N1 as [N1 _].
          apply orb_false_iff in N1. destruct N1 as [-> ->]. reflexivity. }
      rewrite FN. split.
      - intros [I N]. rewrite <- NM in I. apply in_map_iff in I. destruct I as [i [<- I]].
        destruct (R1 i I N) as [_ ->]. discriminate.
      - intro N. destruct (in_dec string_dec k (file_names f)) as [I|I].
        + split; [exact I|]. destruct (is_new o k) eqn:IN; [reflexivity|]. destruct (R2 k IN) as [_ X]. congruence.
        + rewrite <- NM in I. destruct (R3 k I) as [_ X]. congruence. }
    assert (CP : forall k, In k (foreign E (conv o) f) <-> dget k (customs p) <> None).
    { destruct PQ as [->|[ev3 [r V]]]; [exact CQ|].
      assert (PP : pub p = pub q).
      { assert (P1 := proj1 (verify_raise_pub (normative_keys E) E VRead q)).
        change (pub (m_obj (verify E HRaise VRead q)) = pub q) in P1. rewrite V in P1. exact P1. }
      assert (T : forall n t, file_text f n = Ok t -> exists b, dget ("GLOBAL_" +++ n) (pub q) = Some (VStr b t)).
      { intros n t T. unfold file_text in T. destruct (dget n (nf_attrs f)) as [x|] eqn:G; [|discriminate T].
        destruct x as [b t'| | |]; try discriminate T. injection T as ->. apply dget_In in G.
        destruct (SA _ _ G) as [y [Y1 Y2]]. cbn in Y2. subst y. exists b. rewrite <- PP. exact Y1. }
      destruct (T _ _ FC) as [b GC]. change ("GLOBAL_" +++ "SOFAConventions") with "GLOBAL_SOFAConventions" in GC.
      assert (VC := verify_custom E VRead q p ev3 r b c v (conv o) V GC (T _ _ FV) LO).
      intro k. rewrite (CQ k). destruct (dget k (conv o)) as [e|] eqn:D.
      - split; intro X; exfalso.
        + apply CQ in X. unfold foreign in X. apply filter_In in X. destruct X as [_ X]. rewrite smem_dmem in X.
          unfold dmem in X. rewrite D in X. discriminate X.
        + destruct (raise_ok_core _ _ _ _ _ _ V) as [o1 [e1 [w2 [a [d [R [_ [_ [_ [OD _]]]]]]]]]].
          destruct (reset_convention_cases E q) as [[y R']|[c1 [bb [v1 [cv1 [X1 [X2 [_ [X4 R']]]]]]]]]; rewrite R' in R; [discriminate R|].
          destruct (T _ _ FV) as [b2 GV]. assert (c1 = c) by congruence. change ("GLOBAL_" +++ "SOFAConventionsVersion") with "GLOBAL_SOFAConventionsVersion" in GV.
          assert (v1 = VStr b2 v) by congruence. subst c1 v1. cbn [py_str] in X4. assert (cv1 = conv o) by congruence. subst cv1.
          apply X. assert (CU : customs p = customs o1) by (rewrite OD; reflexivity). rewrite CU.
          unfold customs. destruct (custom q) as [cu|] eqn:CQ'; injection R as <-; [|cbn [custom with_conv]; rewrite CQ'; reflexivity].
          cbn [custom with_custom]. unfold keep_custom. rewrite (dget_filter (fun j => negb (dmem j (conv o)))).
          unfold dmem. rewrite D. reflexivity.
      - rewrite (VC k D). reflexivity. }
    intro k. rewrite (CP k). unfold customs. destruct (custom p) as [cu|].
    + split.
      * intro X. exists cu. split; [reflexivity|]. apply dget_Some_In. destruct (dget k cu) as [e|]; [eauto|congruence].
      * intros [cu' [X Y]]. injection X as <-. apply dget_Some_In in Y. destruct Y as [e ->]. discriminate.
    + split; [intro X; exfalso; apply X; reflexivity|]. intros [cu' [X _]]. discriminate X.
  - rewrite !warnings_app, !filter_app, (usual_entry _ U0), (usual_entry _ U2), app_nil_r. cbn [app].
    replace (warnings (if verbose then _ else _)) with (@nil string) by (destruct verbose; [destruct (foreign E (conv o) f)|]; reflexivity).
    cbn [filter app]. rewrite app_nil_r, VW. unfold missing_names. clear.
    induction (map fst (filter (fun nx => has_missing (snd nx)) (nf_vars f))) as [|n l IH]; [reflexivity|].
    cbn [map filter].
    replace (startswith "Entry" (missing_text n)) with true by reflexivity. rewrite IH. reflexivity.
Qed.
Print Assumptions C68_custom_data_reported_partial.

(** a file with data that are not part of the convention and with missing data *)
Definition mixed_file : ncfile :=
  NcFile (nf_dims small_file) (nf_attrs small_file)
    (nf_vars small_file
     ++ [("Gaps", NcVar ["I"] [1] (DNum KF (Some (EFlt fill64)) [EFlt fill64]) []);
         ("Count", NcVar ["I"] [1] (DNum KI None [EInt 3]) [("Units", VStr false "1")])]).
Definition told_reading (f : ncfile) : list event * bool :=
  let r := read_sofa demo (fs_set "c.sofa" f disk) "c" VNo true in (fst r, is_ok (snd r)).

Example C68_case :
  file_wf mixed_file /\ NoDup (file_names mixed_file)
  /\ (forall k, In k (file_names mixed_file) -> ~ In k class_attrs)
  /\ file_text mixed_file "SOFAConventions" = Ok "SimpleFreeFieldHRIR"
  /\ told_reading mixed_file =
     ([EvWarn "Entry Gaps contains missing data";
       EvPrint ("SOFA file contained custom entries" +++ newline +++ "----------------------------------" +++ newline
                +++ "GLOBAL_Owner, Data_Delay_Units, Words, Gaps, Count, Count_Units")], true).
Proof.
  split; [apply file_wfb_ok; vm_compute; reflexivity|]. split; [apply nodupb_ok; vm_compute; reflexivity|].
  split.
  { assert (B : forallb (fun k => negb (smem k class_attrs)) (file_names mixed_file) = true) by (vm_compute; reflexivity).
    intros k K. rewrite forallb_forall in B. apply smem_false, negb_true_iff. exact (B k K). }
  split; vm_compute; reflexivity.
Qed.

(** a variable with the name of a method is not reported and is no custom data *)
Definition method_file : ncfile :=
  NcFile (nf_dims small_file) (nf_attrs small_file)
    (nf_vars small_file ++ [("copy", NcVar ["I"] [1] (DNum KI None [EInt 3]) [])]).
Theorem C68_refuted :
  file_wf method_file /\ NoDup (file_names method_file)
  /\ In "copy" (foreign demo (sofar_keys (hrir "1.0")) method_file)
  /\ told_reading method_file =
     ([EvPrint ("SOFA file contained custom entries" +++ newline +++ "----------------------------------" +++ newline
                +++ "GLOBAL_Owner, Data_Delay_Units, Words")], true).
Proof.
  split; [apply file_wfb_ok; vm_compute; reflexivity|]. split; [apply nodupb_ok; vm_compute; reflexivity|].
  split; [|vm_compute; reflexivity].
  assert (B : smem "copy" (foreign demo (sofar_keys (hrir "1.0")) method_file) = true) by (vm_compute; reflexivity).
  exact (proj1 (smem_In _ _) B).
Qed.
Print Assumptions C68_refuted.

(** ** C69 *)

(** missing: warnings about variables do not name them *)
Theorem C69_differences_reported_partial :
  forall a b s x, option_of x s -> dicts_ok a -> dicts_ok b -> plain a -> plain b ->
  (* same result and no output with verbose=False *)
  equals a b false s = ([], snd (equals a b true s))
  (* no output for identical data *)
  /\ (snd (equals a b true s) = Ok true -> fst (equals a b true s) = [])
  (* otherwise warnings *)
  /\ (snd (equals a b true s) = Ok false ->
      prints (fst (equals a b true s)) = []
      /\ ((exists k, ~ (compared x a k <-> compared x b k)) ->
          exists w, warnings (fst (equals a b true s)) = ["not identical: " +++ w])
      /\ ((forall k, compared x a k <-> compared x b k) ->
          exists ks, in_order ks (dkeys (pub a)) /\ ks <> []
            /\ (forall k, In k ks <-> compared x a k /\ ~ same_entry a b k)
            /\ Forall2 (tells a b) ks (warnings (fst (equals a b true s))))).
Proof.
  intros a b s x OX [NA _] [NB _] PA PB. split; [apply equals_quiet|]. split.
  { intro H. rewrite (equals_silent a b true s H). reflexivity. }
  intro H.
  assert (SA : exists ka, select s a = Ok ka) by (unfold equals in H; destruct (select s a); [eauto|discriminate H]).
  destruct SA as [ka SA].
  assert (SB : exists kb, select s b = Ok kb) by (unfold equals in H; rewrite SA in H; destruct (select s b); [eauto|discriminate H]).
  destruct SB as [kb SB].
  destruct (select_spec x s a ka OX NA SA) as [DA IA]. destruct (select_spec x s b kb OX NB SB) as [DB IB].
  destruct (equals_cases a b true x s ka kb OX NA NB SA SB) as [[N EQ]|[N _]].
  - rewrite EQ in H |- *. destruct (compare_keys_said a b ka true false H) as [S1 S2]. rewrite S1.
    assert (WW : forall l, prints (map EvWarn l) = [] /\ warnings (map EvWarn l) = l).
    { induction l as [|w l [I1 I2]]; [split; reflexivity|]. cbn [map prints warnings]. rewrite I1, I2. auto. }
    destruct (WW (map (message a b) (filter (differs a b) ka))) as [-> ->].
    split; [reflexivity|]. split; [intros [k X]; exfalso; apply X; apply N|]. intros _.
    exists (filter (differs a b) ka). split.
    { apply (in_order_trans _ ka); [apply (select_in_order x s a ka OX SA)|apply filter_in_order]. }
    assert (DI : forall k, In k (filter (differs a b) ka) <-> compared x a k /\ ~ same_entry a b k).
    { intro k. rewrite filter_In, IA. assert (CK := compare_key_iff a b k (PA k) (PB k)).
      split; intros [K1 K2]; (split; [exact K1|]).
      - unfold differs in K2. intro SE. apply CK in SE. rewrite SE in K2. discriminate K2.
      - destruct (S2 k (proj2 (IA k) K1)) as [m M]. unfold differs. rewrite M. destruct m as [m|]; [reflexivity|].
        exfalso. apply K2. apply CK. exact M. }
    split.
    { intro NIL. assert (T : snd (compare_keys a b true ka true) = Ok true).
      { apply compare_keys_true. split; [reflexivity|]. intros k K. destruct (S2 k K) as [m M]. destruct m as [m|]; [|exact M].
        exfalso. assert (I : In k (filter (differs a b) ka)) by (apply filter_In; split; [exact K|unfold differs; rewrite M; reflexivity]).
        rewrite NIL in I. exact I. }
      congruence. }
    split; [exact DI|].
    assert (F : forall k, In k (filter (differs a b) ka) -> tells a b k (message a b k)).
    { intros k K. apply filter_In in K. destruct K as [_ K]. unfold differs in K. unfold message.
      destruct (compare_key a b k) as [[m|]|e] eqn:M; try discriminate K. apply message_tells. exact M. }
    revert F. generalize (filter (differs a b) ka) as ks. induction ks as [|k ks IH]; intro F; [constructor|].
    cbn [map]. constructor; [apply F; left; reflexivity|]. apply IH. intros j J. apply F. right. exact J.
  - assert (NC := names_check ka kb DA DB).
    assert (EQ : (forall k, In k ka <-> In k kb) <-> forall k, compared x a k <-> compared x b k).
    { split; intros Q k; [rewrite <- IA, <- IB|rewrite IA, IB]; apply Q. }
    unfold equals. rewrite SA, SB.
    destruct (negb (Nat.eqb (List.length ka) (List.length kb))) eqn:B1.
    + split; [reflexivity|]. split; [intros _; eexists; reflexivity|]. intro Q. contradiction.
    + destruct (negb (forallb (fun k => smem k kb) ka && forallb (fun k => smem k ka) kb)) eqn:B2.
      * split; [reflexivity|]. split; [intros _; exists "sofa_a and sofa_b do not have the ame attributes"; reflexivity|]. intro Q. contradiction.
      * exfalso. apply N, EQ, NC. auto.
Qed.
Print Assumptions C69_differences_reported_partial.

Definition retitled : sofa :=
  put "GLOBAL_Title" (VStr false "other") (put "Data_Delay" (nums [1; 2] [3; 4]%Z) demo_sofa).
Definition shorter : sofa := m_obj (del_attr "RoomTemperature" demo_sofa).
Definition retyped : sofa :=
  with_conv demo_sofa (dset "GLOBAL_Title" (Entry None None "string" (VStr false "") None) (conv demo_sofa)).

Example C69_case :
  option_of ExDate (Some "Date")
  /\ equals demo_sofa retitled true (Some "Date")
     = ([EvWarn "not identical: different values for GLOBAL_Title";
         EvWarn "not identical: different values for {key}"], Ok false)
  /\ equals demo_sofa retitled false (Some "Date") = ([], Ok false)
  /\ equals demo_sofa shorter true None
     = ([EvWarn "not identical: sofa_a has 28 attributes for comparison and sofa_b has 27."], Ok false)
  /\ equals demo_sofa retyped true None
     = ([EvWarn "not identical: GLOBAL_Title has different data types (attribute, string)"], Ok false).
Proof. repeat split; vm_compute; reflexivity. Qed.

(** a variable differs and the warnings do not name it *)
Theorem C69_refuted :
  let b := put "Data_Delay" (nums [1; 2] [3; 4]%Z) demo_sofa in
  equals demo_sofa b true None = ([EvWarn "not identical: different values for {key}"], Ok false)
  /\ ~ names_entry "Data_Delay" "not identical: different values for {key}".
Proof.
  split; [vm_compute; reflexivity|]. intros [p [q H]].
  assert (X : contains "Data_Delay" "not identical: different values for {key}" = true) by (apply contains_iff; exists p, q; exact H).
  vm_compute in X. discriminate X.
Qed.
Print Assumptions C69_refuted.

(** ** C70 *)

(** missing: with mandatory=False, "All mandatory data contained." does not mean
    that they are *)
Theorem C70_added_data_reported_partial :
  forall E m p b o o' ev, add_missing E m p b o = (o', ev, Ok tt) -> ~ In "protected" (dkeys (conv o')) ->
  warnings ev = []
  (* one line for every new entry, in order *)
  /\ prints ev = (if b then [added_text (conv o') (added_names o o')] else [])
  (* all new entries are requested entries of the convention *)
  /\ (forall k, In k (added_names o o') <->
        ~ In k (dkeys (pub o)) /\ exists e, dget k (conv o') = Some e /\ requested m p e = true)
  (* the message about mandatory data *)
  /\ (m = true -> prints ev = ["All mandatory data contained."] ->
      forall k e, dget k (conv o') = Some e -> is_mandatory (e_flags e) = true -> In k (dkeys (pub o))).
Proof.
  intros E m p b o o' ev H NP. assert (S1 := add_missing_said E m p b o o' ev tt H NP).
  destruct (C27_add_missing E m p b o o' ev H NP) as [K [R [N _]]].
  assert (AD : forall k, In k (added_names o o') <->
        ~ In k (dkeys (pub o)) /\ exists e, dget k (conv o') = Some e /\ requested m p e = true).
  { intro k. unfold added_names. rewrite filter_In, negb_true_iff, smem_false. split.
    - intros [I NI]. split; [exact NI|]. destruct (N k I) as [C|C]; [contradiction|exact C].
    - intros [NI [e [D Q]]]. split; [exact (proj1 (R k e D Q))|exact NI]. }
  split; [rewrite S1; destruct b; reflexivity|]. split; [rewrite S1; destruct b; reflexivity|]. split; [exact AD|].
  intros -> P k e D MA. destruct (in_dec string_dec k (dkeys (pub o))) as [I|I]; [exact I|]. exfalso.
  assert (X : In k (added_names o o')).
  { apply AD. split; [exact I|]. exists e. split; [exact D|]. unfold requested. rewrite MA. reflexivity. }
  rewrite S1 in P. destruct b; [|discriminate P]. cbn [prints] in P. apply (f_equal (fun l => hd "" l)) in P. cbn [hd] in P.
  unfold added_text in P. destruct (added_names o o') as [|j l]; [contradiction|].
  apply (f_equal (startswith "Added")) in P. cbn in P. discriminate P.
Qed.
Print Assumptions C70_added_data_reported_partial.

Definition missing_title : sofa := with_prot (m_obj (del_attr "GLOBAL_Title" (with_prot demo_sofa false))) true.
Definition stripped : sofa := m_obj (del_attr "RoomTemperature" missing_title).
Example C70_case :
  m_out (add_missing demo true true true stripped)
  = [EvPrint ("Added the following missing data with their default values:" +++ newline
              +++ "- GLOBAL_Title (mandatory)" +++ newline +++ "- RoomTemperature (optional)" +++ newline)]
  /\ m_out (add_missing demo true true false stripped) = []
  /\ m_out (add_missing demo true true true demo_sofa) = [EvPrint "All mandatory data contained."]
  /\ smem "protected" (dkeys (conv (m_obj (add_missing demo true true true stripped)))) = false.
Proof. repeat split; vm_compute; reflexivity. Qed.

(** the mandatory title is missing *)
Theorem C70_refuted :
  m_res (add_missing demo false true true missing_title) = Ok tt
  /\ m_out (add_missing demo false true true missing_title) = [EvPrint "All mandatory data contained."]
  /\ dget "GLOBAL_Title" (pub (m_obj (add_missing demo false true true missing_title))) = None
  /\ exists e, dget "GLOBAL_Title" (conv missing_title) = Some e /\ is_mandatory (e_flags e) = true.
Proof.
  split; [vm_compute; reflexivity|]. split; [vm_compute; reflexivity|]. split; [vm_compute; reflexivity|].
  eexists. split; vm_compute; reflexivity.
Qed.
Print Assumptions C70_refuted.
