(** C79: the report of verify names exactly the problems of the object. *)
From Verif Require Import Base PyStr PyNum NdArray Sofa Verify Upgrade Demo
  SpecAttr SpecInit SpecValue SpecVerify SpecIssues DemoFacts BaseFacts StrFacts AttrFacts OpFacts InitFacts ProtFacts
  AddDelFacts MissingFacts CoreFacts ValidFacts ShapeFacts RuleFacts VerifyFacts DictFacts IssueFacts DimFacts IssueLines PropVerify.
From Coq Require Import ZArith Lia.
Open Scope string_scope.
Open Scope list_scope.

Lemma deprecated_eq E o o2 b c : dget "GLOBAL_SOFAConventions" (pub o) = Some (VStr b c) -> pub o2 = pub o ->
  deprecation_msg E o2 = Ok (deprecated_text E o).
Proof. intros NM P. unfold deprecation_msg, getattr, deprecated_text. rewrite P, NM. reflexivity. Qed.

Lemma reset_of E o cv : db_ok E -> dicts_ok o -> convention_of E o cv ->
  exists o1, reset_convention E o = (o1, [], Ok tt) /\ reset_to cv o o1.
Proof.
  intros DB DO [b [c [w [content [H1 [H2 [H3 ->]]]]]]].
  destruct (reset_iff E o DB DO) as [RI1 RI2]. destruct (RI2 b c w content H1 H2 H3) as [o1 RE].
  exists o1. split; [exact RE|]. destruct (RI1 _ RE) as [b' [c' [w' [content' [G1 [G2 [G3 G4]]]]]]].
  rewrite H1 in G1. rewrite H2 in G2. injection G1 as <- <-. injection G2 as <-.
  assert (N := proj1 DB). unfold has_file in *.
  apply (In_dget _ _ _ N) in H3. apply (In_dget _ _ _ N) in G3.
  assert (content' = content) by congruence. subst. exact G4.
Qed.

Lemma type_errors_ok E cv o o1 : reset_to cv o o1 ->
  (forall k, contained o k -> declared cv o k <> None) ->
  exists t, type_errors E o1 (dkeys (pub o1)) = Ok t.
Proof.
  intros R K. unfold type_errors.
  match goal with |- exists t, rconcat ?g _ = _ => set (f := g) end.
  assert (G : forall l, (forall k, In k l -> contained o k) -> exists t, rconcat f l = Ok t).
  { induction l as [|k l IH]; intro H; [exists ""; reflexivity|]. cbn [rconcat].
    assert (C := H k (or_introl eq_refl)).
    assert (F : exists t, f k = Ok t).
    { unfold f, dgetE, getattr. rewrite (rt_conv _ _ _ R), (rt_pub _ _ _ R).
      destruct (declared cv o k) as [e|] eqn:D; [|destruct (K k C D)].
      apply dget_Some_In in C. destruct C as [v G]. rewrite G. cbn [rbind]. eauto. }
    destruct F as [u ->]. destruct IH as [t ->]; [intros; apply H; right; assumption|]. cbn [rbind]. eauto. }
  apply G. intros k I. unfold contained. rewrite <- (rt_pub _ _ _ R). exact I.
Qed.

(** ** Missing data and data of the wrong type are reported first *)
Theorem C79_first_report :
  forall E m o cv, db_ok E -> dicts_ok o -> convention_of E o cv ->
  (forall k, contained o k -> declared cv o k <> None) ->
  exists s, first_report E cv o s
    /\ (s <> "" ->
        m_res (verify E HRaise m o) = Err (Exn EValueError (nl +++ "ERRORS" +++ nl +++ "------" +++ nl +++ s))
        /\ m_out (verify E HRaise m o) = []
        /\ (complete E o ->
            m_res (verify E HReturn m o) = Ok (Some (nl +++ "ERRORS" +++ nl +++ "------" +++ nl +++ s))
            /\ m_out (verify E HReturn m o) = []
            /\ m_res (verify E HPrint m o) = Ok None
            /\ m_out (verify E HPrint m o) = [EvPrint (nl +++ "ERRORS" +++ nl +++ "------" +++ nl +++ s)])).
Proof.
  intros E m o cv DB DO CO K. destruct (reset_of E o cv DB DO CO) as [o1 [RE R]].
  destruct (type_errors_ok E cv o o1 R K) as [t TE].
  exists (section msg_missing (miss_text o1) +++ section msg_type t). split.
  { apply fr_intro; [apply (reports_section msg_missing)|apply (reports_section msg_type)].
    - apply missing_text. exact R.
    - apply (types_text E cv o o1 R). exact TE. }
  intro NE. unfold verify. rewrite !verify_gen_eq, !(bind_silent _ _ _ _ _ RE).
  assert (FE : forall h pe, h <> HIgnore -> pe +++ section msg_type t <> "" ->
     checked (normative_keys E) E m false pe "" (dkeys (pub o1)) o1
     = (o1, [], Ok (pe +++ section msg_type t, ""))).
  { intros h pe _ N. unfold checked. rewrite TE. cbv zeta.
    destruct (String.eqb_spec (pe +++ section msg_type t) "") as [Q|Q]; [contradiction|]. reflexivity. }
  split; [|split; [|intro CP]].
  - rewrite rest_checked. cbn [h_raise negb when h_ignore]. rewrite bind_ret, bind_finish.
    rewrite (FE HRaise) by (discriminate || exact NE). unfold outcome, answer, m_res. cbn [snd].
    rewrite (eqb_neq_s _ _ NE). unfold err_head. rewrite !sapp_assoc. reflexivity.
  - rewrite rest_checked. cbn [h_raise negb when h_ignore]. rewrite bind_ret, bind_finish.
    rewrite (FE HRaise) by (discriminate || exact NE). reflexivity.
  - assert (MI : missing o1 = []) by (eapply complete_missing; eassumption).
    assert (MT : miss_text o1 = "") by (apply miss_text_nil; exact MI). rewrite MT in *.
    change (section msg_missing "") with "" in *. cbn [append] in NE |- *.
    rewrite !rest_complete by exact MI. cbn [h_ignore].
    rewrite (FE HReturn "") by (discriminate || exact NE).
    unfold outcome, answer, told, m_res, m_out. cbn [fst snd append].
    rewrite (eqb_neq_s _ _ NE). cbn [String.eqb app]. rewrite sapp_nil_r.
    unfold err_head. rewrite !sapp_assoc. auto.
Qed.
Print Assumptions C79_first_report.

(** ** All other problems are reported together *)
Theorem C79_second_report :
  forall E m o cv, db_ok E -> rules_tidy E -> dicts_ok o -> convention_of E o cv -> complete E o ->
  (forall k v, dget k (pub o) = Some v -> exists e, declared cv o k = Some e /\ has_type (e_type e) v) ->
  is_ok (m_res (verify E HReturn m o)) = true ->
  exists e w, second_report E m cv o e
    /\ (forall h, h <> HIgnore -> m_res (verify E h m o) = answer h w e)
    /\ (custom o = None -> forall h, h <> HIgnore -> m_out (verify E h m o) = told h w e).
Proof.
  intros E m o cv DB RT DO CO CP TY OK. destruct (reset_of E o cv DB DO CO) as [o1 [RE R]].
  assert (MI : missing o1 = []) by (eapply complete_missing; eassumption).
  assert (TE : type_errors E o1 (dkeys (pub o1)) = Ok "") by (apply (types_iff E cv o o1 R); exact TY).
  assert (VF : forall h, h <> HIgnore -> verify E h m o
     = outcome h (checked (normative_keys E) E m false "" "" (dkeys (pub o1)) o1)).
  { intros h NI. unfold verify. rewrite verify_gen_eq, (bind_silent _ _ _ _ _ RE), rest_complete by exact MI.
    destruct h; try congruence; reflexivity. }
  assert (CK : checked (normative_keys E) E m false "" "" (dkeys (pub o1)) o1
     = core (normative_keys E) E m (dkeys (pub o1)) o1).
  { unfold checked. rewrite TE. cbv zeta. change ("" +++ section msg_type "") with "".
    cbn [String.eqb negb andb append].
    destruct (core (normative_keys E) E m (dkeys (pub o1)) o1) as [[o2 ev] [[e w]|x]]; reflexivity. }
  rewrite (VF HReturn) in OK by discriminate. rewrite CK in *.
  assert (QU := checked_quiet (normative_keys E) E m false "" "" (dkeys (pub o1)) o1). rewrite CK in QU.
  destruct CO as [b [c [w0 [content [NM [VS [HF CV]]]]]]].
  assert (NL : no_lists o) by (apply (types_no_lists cv o TY)).
  destruct (core (normative_keys E) E m (dkeys (pub o1)) o1) as [[o2 ev] [[e w]|x]] eqn:CE; [|discriminate OK].
  exists e, w. split; [|split].
  - clear VF CK QU OK. unfold core in CE.
    destruct (name_errors o1 (dkeys (pub o1))) as [ne|x] eqn:NE; [|discriminate CE].
    destruct (cust_check (normative_keys E) o1) as [ev2 [ce|x]] eqn:CC; [|discriminate CE].
    destruct (dims_pure o1) as [[a d] rs] eqn:DP. cbv zeta in CE.
    assert (CE2 := f_equal snd CE). cbn [snd] in CE2. clear CE.
    apply rbind_Ok in CE2. destruct CE2 as [se [-> CE2]].
    apply rbind_Ok in CE2. destruct CE2 as [[le lw] [LC CE2]]. injection CE2 as <- <-.
    destruct (dims_pure_detect _ _ _ _ DP) as [s [HD ->]].
    assert (SZ := sizes_iff cv o o1 R DO NL s HD).
    set (o3 := set_dims o1 (fixed_sizes s) d) in *.
    assert (RP3 : pub o3 = pub o) by (exact (rt_pub _ _ _ R)).
    unfold late_check in LC. apply rbind_Ok in LC. destruct LC as [re [L1 LC]].
    apply rbind_Ok in LC. destruct LC as [ue [L2 LC]].
    apply rbind_Ok in LC. destruct LC as [dm [L3 LC]]. apply rbind_Ok in LC. destruct LC as [pm [L4 LC]].
    injection LC as <- <-.
    rewrite (deprecated_eq E o o3 b c NM RP3) in L3. injection L3 as <-.
    destruct (names_text cv o o1 R ne NE) as [s1 [s2 [s3 [s4 [-> [N1 [N2 [N3 N4]]]]]]]].
    cbn [fst]. rewrite !sapp_assoc. apply sr_intro; try assumption.
    + apply (custom_text E cv o o1 R c (py_str E w0) b); [exact DB|eauto|exact NM|eauto|].
      rewrite CC. reflexivity.
    + apply (reports_section msg_shape). apply (shapes_text cv o o1 R DO NL s HD d). exact DP.
    + apply (reports_section msg_rules).
      eapply (spells_app _ (fun k u => m = VWrite /\ unit_lines o k u)); [|apply (rules_text E cv o o3 (fixed_sizes s) RP3 SZ re RT L1)|].
      * intros k u. reflexivity.
      * destruct m; cbn [m_write] in L2.
        -- eapply spells_iff; [|apply (units_text o o3 RP3 ue (proj1 DO) L2)]. intros k u. tauto.
        -- injection L2 as <-. apply spells_none. intros k u [Q _]. discriminate Q.
  - intros h NI. rewrite (VF h NI). reflexivity.
  - intros CN h NI. rewrite (VF h NI).
    assert (C1 : custom o1 = None) by (rewrite (rt_custom _ _ _ R), CN; reflexivity).
    specialize (QU C1). unfold m_out in QU. cbn [fst snd] in QU. subst ev. reflexivity.
Qed.
Print Assumptions C79_second_report.

(** an object with a wrong shape, a value that is not allowed and a unit in upper case *)
Definition three_issues : sofa :=
  put "ListenerPosition" (nums [2; 3] [1; 2; 3; 4; 5; 6]%Z)
    (put "ListenerPosition_Type" (VStr false "polar")
       (put "Data_SamplingRate_Units" (VStr false "Hertz") demo_sofa)).
Definition three_lines : string :=
  "Detected variables of wrong shape:" +++ nl
  +++ "- ListenerPosition has shape (2, 3) but must have (I=1, C=3), (M=1, C=3)" +++ nl
  +++ "Detected violations of the SOFA convention:" +++ nl
  +++ "- ListenerPosition_Type is polar but must be cartesian, spherical" +++ nl
  +++ "- Data_SamplingRate_Units is Hertz but must contain only lower case letters when writing SOFA files to disk." +++ nl.
(** an object without a mandatory entry and with data of the wrong type *)
Definition two_issues : sofa :=
  with_pub demo_sofa (ddel "ReceiverPosition" (dset "GLOBAL_Title" (nums [2] [1; 2]%Z) (pub demo_sofa))).

Lemma three_complete : complete demo three_issues.
Proof.
  intros cv k e CO D M.
  assert (DO : dicts_ok three_issues) by (do 3 apply put_dicts; exact demo_dicts).
  destruct (reset_of demo three_issues cv demo_db_ok DO CO) as [o1 [RE R]].
  assert (X : match reset_convention demo three_issues with (x, _, Ok _) => missing x | _ => [(k, e)] end = []).
  { vm_compute. reflexivity. }
  rewrite RE in X. exact (proj1 (missing_iff cv three_issues o1 R) X k e D M).
Qed.

Example C79_case :
  (exists cv, convention_of demo three_issues cv
     /\ (forall k v, dget k (pub three_issues) = Some v ->
           exists e, declared cv three_issues k = Some e /\ has_type (e_type e) v)
     /\ second_report demo VWrite cv three_issues three_lines)
  /\ complete demo three_issues
  /\ m_res (verify demo HRaise VWrite three_issues) = Err (Exn EValueError (err_head +++ three_lines))
  /\ m_res (verify demo HRaise VWrite two_issues) = Err (Exn EValueError (err_head
       +++ "Detected missing mandatory data call sofa.add_missing() to fix this):" +++ nl
       +++ "- ReceiverPosition" +++ nl
       +++ "Detected data of wrong type:" +++ nl
       +++ "- GLOBAL_Title must be string but is <class>" +++ nl)).
Proof.
  assert (DO : dicts_ok three_issues) by (do 3 apply put_dicts; exact demo_dicts).
  assert (RR : m_res (verify demo HRaise VWrite three_issues) = Err (Exn EValueError (err_head +++ three_lines))).
  { vm_compute. reflexivity. }
  assert (OK : is_ok (m_res (verify demo HReturn VWrite three_issues)) = true) by (vm_compute; reflexivity).
  assert (TX : match reset_convention demo three_issues with
               | (x, _, Ok _) => type_errors demo x (dkeys (pub x)) | _ => Ok "no" end = Ok "").
  { vm_compute. reflexivity. }
  assert (RX : match reset_convention demo three_issues with (_, _, Ok _) => true | _ => false end = true).
  { vm_compute. reflexivity. }
  split; [|split; [exact three_complete|split; [exact RR|vm_compute; reflexivity]]].
  destruct (reset_none_or demo three_issues) as [[x RE]|[o1 RE]]; [rewrite RE in RX; discriminate RX|].
  rewrite RE in TX. clear RX.
  destruct (proj1 (reset_iff demo three_issues demo_db_ok DO) o1 RE) as [b [c [w [content [H1 [H2 [H3 R]]]]]]].
  assert (CO : convention_of demo three_issues (sofar_keys content)) by (exists b, c, w, content; auto).
  assert (TY := proj1 (types_iff demo (sofar_keys content) three_issues o1 R) TX).
  exists (sofar_keys content). split; [exact CO|]. split; [exact TY|].
  destruct (C79_second_report demo VWrite three_issues _ demo_db_ok demo_rules_tidy DO CO three_complete TY OK)
    as [e [w' [SR [AN _]]]].
  assert (AR : m_res (verify demo HRaise VWrite three_issues) = answer HRaise w' e) by (apply AN; discriminate).
  rewrite RR in AR. unfold answer in AR. destruct (String.eqb e ""); [discriminate AR|].
  injection AR as Q. rewrite Q. exact SR.
Qed.
