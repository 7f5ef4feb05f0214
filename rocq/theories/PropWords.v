(** C85: texts for issue_handling and mode that verify does not know. *)
From Verif Require Import Base PyStr PyNum NdArray Sofa Verify Upgrade Demo
  SpecAttr SpecInit SpecValue SpecVerify SpecIssues DemoFacts BaseFacts StrFacts AttrFacts OpFacts InitFacts ProtFacts
  AddDelFacts MissingFacts CoreFacts ValidFacts ShapeFacts RuleFacts VerifyFacts DictFacts IssueFacts DimFacts IssueLines PropVerify PropIssues.
From Coq Require Import ZArith Lia.
Open Scope string_scope.
Open Scope list_scope.

Definition known_words : list string := ["raise"; "print"; "return"; "ignore"].

Lemma unknown_word w : ~ In w known_words -> handling_of w = HOther.
Proof.
  unfold handling_of, known_words. cbn [In]. intro N.
  destruct (String.eqb_spec w "raise") as [->|]; [tauto|]. destruct (String.eqb_spec w "print") as [->|]; [tauto|].
  destruct (String.eqb_spec w "return") as [->|]; [tauto|]. destruct (String.eqb_spec w "ignore") as [->|]; [tauto|]. reflexivity.
Qed.

(** With an unknown text verify looks for issues as with "return". Data of the wrong
    type are returned with their full report. Everything else is found but not
    told: the answer is None, whether or not the object is valid, which is what is
    missing for the full claim ([C85_refuted]). *)
Theorem C85_unknown_words_partial :
  forall E word mode o cv, ~ In word known_words ->
  db_ok E -> dicts_ok o -> convention_of E o cv -> complete E o ->
  (forall k, contained o k -> declared cv o k <> None) ->
  let r := verify E (handling_of word) (mode_of mode) o in
  ((exists k v e, dget k (pub o) = Some v /\ declared cv o k = Some e /\ ~ has_type (e_type e) v) ->
     exists s, first_report E cv o s /\ s <> "" /\ r = (m_obj r, [], Ok (Some (nl +++ "ERRORS" +++ nl +++ "------" +++ nl +++ s))))
  /\ ((forall k v e, dget k (pub o) = Some v -> declared cv o k = Some e -> has_type (e_type e) v) ->
      is_ok (m_res (verify E HReturn (mode_of mode) o)) = true ->
      m_res r = Ok None /\ (custom o = None -> m_out r = [])
      /\ m_obj r = m_obj (verify E HReturn (mode_of mode) o)).
Proof.
  intros E word mode o cv NW DB DO CO CP K r. unfold r. clear r. rewrite (unknown_word word NW). generalize (mode_of mode) as m. clear NW word mode. intro m.
  destruct (reset_of E o cv DB DO CO) as [o1 [RE R]].
  assert (MI : missing o1 = []) by (eapply complete_missing; eassumption).
  assert (VF : forall h, h <> HIgnore -> verify E h m o
     = outcome h (checked (normative_keys E) E m false "" "" (dkeys (pub o1)) o1)).
  { intros h NI. unfold verify. rewrite verify_gen_eq, (bind_silent _ _ _ _ _ RE), rest_complete by exact MI.
    destruct h; try congruence; reflexivity. }
  destruct (type_errors_ok E cv o o1 R K) as [t TE]. split.
  - intros [k [v [e [G [D NT]]]]].
    assert (T0 : t <> "").
    { intros ->. destruct (proj1 (types_iff E cv o o1 R) TE k v G) as [e' [D' T']]. assert (e' = e) by congruence. subst e'. contradiction. }
    exists (section msg_missing (miss_text o1) +++ section msg_type t).
    assert (MT : miss_text o1 = "") by (apply miss_text_nil; exact MI).
    split; [|split].
    + apply fr_intro; [apply (reports_section msg_missing)|apply (reports_section msg_type)].
      * apply missing_text. exact R.
      * apply (types_text E cv o o1 R). exact TE.
    + rewrite MT. change (section msg_missing "" +++ section msg_type t) with (section msg_type t). unfold section.
      rewrite (eqb_neq_s _ _ T0). discriminate.
    + rewrite MT. change (section msg_missing "" +++ section msg_type t) with (section msg_type t).
      rewrite (VF HOther) by discriminate. unfold checked. rewrite TE. cbv zeta. cbn [append]. unfold section at 1 4.
      rewrite (eqb_neq_s _ _ T0). change (String.eqb (msg_type +++ t) "") with false. cbn [negb andb].
      unfold outcome, told, answer, m_obj. cbn [fst snd app]. unfold section. rewrite (eqb_neq_s _ _ T0).
      change (startswith "Detected data of wrong type:" (msg_type +++ t)) with true. unfold err_head. rewrite !sapp_assoc. reflexivity.
  - intros TY OK. assert (T0 : type_errors E o1 (dkeys (pub o1)) = Ok "").
    { apply (types_iff E cv o o1 R). intros k v G. assert (C : contained o k) by (apply dget_Some_In; eauto).
      destruct (declared cv o k) as [e|] eqn:D; [|destruct (K k C D)]. exists e. split; [reflexivity|]. apply (TY k v e G D). }
    assert (CK : checked (normative_keys E) E m false "" "" (dkeys (pub o1)) o1
       = core (normative_keys E) E m (dkeys (pub o1)) o1).
    { unfold checked. rewrite T0. cbv zeta. change ("" +++ section msg_type "") with "". cbn [String.eqb negb andb append].
      destruct (core (normative_keys E) E m (dkeys (pub o1)) o1) as [[o2 ev] [[e w]|x]]; reflexivity. }
    rewrite (VF HReturn) in OK |- * by discriminate. rewrite (VF HOther) by discriminate.
    assert (QU := checked_quiet (normative_keys E) E m false "" "" (dkeys (pub o1)) o1). rewrite CK in *.
    destruct (core (normative_keys E) E m (dkeys (pub o1)) o1) as [[o2 ev] [[e w]|x]] eqn:CE; [|discriminate OK].
    unfold outcome, told, answer, m_obj, m_out, m_res. cbn [fst snd].
    rewrite (later_start e (core_later _ _ _ _ _ _ _ _ _ CE)). split; [reflexivity|]. split; [|reflexivity].
    intro CN. assert (C1 : custom o1 = None) by (rewrite (rt_custom _ _ _ R), CN; reflexivity).
    specialize (QU C1). unfold m_out in QU. cbn [fst snd] in QU. subst ev. reflexivity.
Qed.
Print Assumptions C85_unknown_words_partial.

(** an entry of the wrong type is returned *)
Definition one_wrong_type : sofa := put "GLOBAL_Title" (nums [2] [1; 2]%Z) demo_sofa.
Example C85_case :
  ~ In "Return" known_words
  /\ m_res (verify demo (handling_of "Return") VWrite one_wrong_type)
     = Ok (Some (err_head +++ "Detected data of wrong type:" +++ nl +++ "- GLOBAL_Title must be string but is <class>" +++ nl))
  /\ m_out (verify demo (handling_of "Return") VWrite one_wrong_type) = [].
Proof.
  split; [intro H; repeat (destruct H as [H|H]; [discriminate H|]); destruct H|]. split; vm_compute; reflexivity.
Qed.

(** An object with three issues passes without any message if issue_handling is
    written with a capital letter, and units in upper case pass if mode is. *)
Theorem C85_refuted :
  (~ In "Raise" known_words /\ ~ valid demo VWrite three_issues
   /\ m_res (verify demo (handling_of "Raise") (mode_of "write") three_issues) = Ok None
   /\ m_out (verify demo (handling_of "Raise") (mode_of "write") three_issues) = [])
  /\ (let o := put "Data_SamplingRate_Units" (VStr false "Hertz") demo_sofa in
      is_ok (m_res (verify demo HRaise (mode_of "write") o)) = false
      /\ m_res (verify demo HRaise (mode_of "Write") o) = Ok None /\ m_out (verify demo HRaise (mode_of "Write") o) = []).
Proof.
  split; [|split; [|split]; vm_compute; reflexivity].
  split; [intro H; repeat (destruct H as [H|H]; [discriminate H|]); destruct H|].
  split; [|split; vm_compute; reflexivity].
  assert (DO : dicts_ok three_issues) by (do 3 apply put_dicts; exact demo_dicts).
  assert (X : is_ok (m_res (verify demo HRaise VWrite three_issues)) = false) by (vm_compute; reflexivity).
  intro V. assert (Y := proj2 (C11_verify_iff_valid demo VWrite three_issues demo_db_ok demo_rules_tidy DO) V). congruence.
Qed.
Print Assumptions C85_refuted.
