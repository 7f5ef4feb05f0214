(** C65: verify reports problems as errors of type ValueError. *)
From Verif Require Import Base PyStr PyNum NdArray Sofa Verify Demo SpecAttr SpecInit SpecVerify SpecCrash
  BaseFacts AttrFacts CoreFacts ValidFacts VerifyFacts IssueFacts DimFacts DictFacts DemoFacts CrashFacts TwiceFacts PropVerify PropIo PropRound PropInfo.
From Coq Require Import ZArith.
Open Scope string_scope.
Open Scope list_scope.

Lemma missing_text o : miss_text o = "" -> missing o = [].
Proof.
  unfold miss_text. destruct (missing o) as [|kv l]; [reflexivity|]. intro H. cbn [sconcat] in H.
  apply sapp_eq_nil in H. destruct H as [H _]. unfold bullet in H. discriminate H.
Qed.

(** Missing: objects that are not [checkable] or contain undeclared data,
    [C65_refuted]. *)
Theorem C65_raises_partial :
  forall E m o cv, db_ok E -> rules_tidy E -> dicts_ok o -> convention_of E o cv ->
  (forall k, contained o k -> declared cv o k <> None) ->
  (complete E o -> well_typed cv o -> checkable E m o cv) ->
  m_res (verify E HRaise m o) = Ok None
  \/ exists t, t <> "" /\ m_res (verify E HRaise m o) = Err (Exn EValueError (err_head +++ t)).
Proof.
  intros E m o cv DB RT DO CV DE CK. destruct (unique_reset E o cv DB DO CV) as [o1 [RS R]].
  assert (X : verify E HRaise m o = outcome HRaise
    (checked (normative_keys E) E m false (section msg_missing (miss_text o1)) "" (dkeys (pub o1)) o1)).
  { unfold verify. rewrite verify_gen_eq, (bind_silent _ _ _ _ _ RS), rest_checked.
    cbn [h_raise h_ignore negb when]. rewrite bind_ret. apply bind_finish. }
  rewrite X. destruct (checked_total E m cv o o1 false (section msg_missing (miss_text o1)) "" R DB RT DO CV DE)
    as [o' [ev [e [w ->]]]]; [discriminate| |].
  - intros [P|P]; [|discriminate P]. intro W. apply CK; [|exact W]. apply section_nil in P; [|discriminate].
    apply (complete_dec E o o1 DB DO RS). apply missing_text. exact P.
  - cbn [outcome m_res snd answer]. destruct (String.eqb_spec e "") as [->|N]; [left; reflexivity|right; eauto].
Qed.
Print Assumptions C65_raises_partial.

(** with 'print' and 'return' nothing is raised, for complete objects. Missing
    as above *)
Theorem C65_returns_partial :
  forall E h m o cv, db_ok E -> rules_tidy E -> dicts_ok o -> convention_of E o cv ->
  (forall k, contained o k -> declared cv o k <> None) -> complete E o ->
  (h = HIgnore -> well_typed cv o) ->
  (well_typed cv o -> checkable E m o cv) ->
  h <> HRaise -> is_ok (m_res (verify E h m o)) = true.
Proof.
  intros E h m o cv DB RT DO CV DE CO WT CK NR. destruct (unique_reset E o cv DB DO CV) as [o1 [RS R]].
  unfold verify. rewrite verify_gen_eq, (bind_silent _ _ _ _ _ RS).
  rewrite rest_complete by (eapply complete_missing; eassumption).
  destruct (checked_total E m cv o o1 (h_ignore h) "" "" R DB RT DO CV DE) as [o' [ev [e [w ->]]]].
  - intro H. apply WT. destruct h; try discriminate H. reflexivity.
  - intros _. exact CK.
  - cbn [outcome m_res snd]. destruct h; [congruence|reflexivity..].
Qed.
Print Assumptions C65_returns_partial.

(** the same for incomplete objects, to which the missing mandatory data are
    added first *)
Theorem C65_completes_partial :
  forall E h m o cv, db_ok E -> db_tidy E -> db_sound E -> rules_tidy E -> dicts_ok o -> no_flags o ->
  convention_of E o cv -> (forall k, contained o k -> declared cv o k <> None) -> h <> HRaise ->
  let o1 := m_obj (verify E h m o) in
  (h = HIgnore -> well_typed cv o1) -> (well_typed cv o1 -> checkable E m o1 cv) ->
  is_ok (m_res (verify E h m o)) = true.
Proof.
  intros E h m o cv DB DT DS RT DO NF CV DE NR o1 WT CK.
  assert (DO1 : dicts_ok o1) by (apply kdict_verify; exact DO).
  destruct (verify_second E h m o DB DT DS DO NF NR) as [CO SE]. specialize (CO (ex_intro _ cv CV)).
  fold o1 in CO, SE.
  assert (CV1 : convention_of E o1 cv).
  { destruct CV as [b [c [w [ct [G1 [G2 G3]]]]]]. exists b, c, w, ct.
    split; [apply verify_keeps; exact G1|]. split; [apply verify_keeps; exact G2|exact G3]. }
  assert (OC : own_custom cv o1 = own_custom cv o).
  { destruct (unique_reset E o cv DB DO CV) as [r [R RR]].
    destruct (verify_gen_obj (normative_keys E) E h m o) as [[_ [e [_ RE]]]|[r' [R' [_ [_ G]]]]].
    - rewrite R in RE. discriminate RE.
    - rewrite R in R'. injection R' as <-. apply (own_custom_reset cv o r o1 RR). exact (gr_custom _ _ G). }
  assert (DE1 : forall k, contained o1 k -> declared cv o1 k <> None).
  { intros k C. assert (DD : declared cv o1 k = declared cv o k) by (unfold declared; rewrite OC; reflexivity). rewrite DD.
    apply dget_Some_In in C. destruct C as [v G]. destruct (verify_added E h m o k v DB DO G) as [G0|[cv' [e [CV' [D _]]]]].
    - apply DE. apply dget_Some_In. eauto.
    - rewrite (convention_unique E o cv cv' DB CV CV') in D. rewrite D. discriminate. }
  assert (OK := C65_returns_partial E h m o1 cv DB RT DO1 CV1 DE1 CO WT CK NR).
  destruct SE as [Q|[keys [ev [e [w [_ [_ [Q1 Q2]]]]]]]]; [rewrite <- Q; exact OK|].
  rewrite Q1. cbn [m_res snd]. destruct h; [congruence|reflexivity..].
Qed.
Print Assumptions C65_completes_partial.

(** a deleted and re-added entry, an array of strings without axes, a variable
    with the name of a unit *)
Theorem C65_refuted :
  (exists o, m_obj (add_variable "Temp" (nums [1; 1] [1%Z]) "double" (Some "IM")
      (m_obj (del_attr "Temp" (m_obj (add_variable "Temp" (nums [1; 1] [1%Z]) "double" (Some "IM") demo_sofa))))) = o
    /\ (exists t, m_res (verify demo HRaise VWrite o) = Err (Exn EKeyError t)))
  /\ (exists o, m_obj (add_variable "Names" (VArr (Arr KU [] [EStr "a"] false)) "string" (Some "IS") demo_sofa) = o
    /\ (exists t, m_res (verify demo HRaise VWrite o) = Err (Exn ETypeError t)))
  /\ (exists o, m_obj (add_variable "MyUnits" (nums [1; 1] [1%Z]) "double" (Some "IM") demo_sofa) = o
    /\ (exists t, m_res (verify demo HRaise VWrite o) = Err (Exn EAttributeError t))).
Proof.
  split; [|split]; (eexists; split; [reflexivity|]); eexists; vm_compute; reflexivity.
Qed.
Print Assumptions C65_refuted.

Definition typedb (cv : convention) (o : sofa) : bool :=
  forallb (fun kv => match declared cv o (fst kv) with
                     | Some e => String.eqb (type_error demo (fst kv) (e_type e) (snd kv)) ""
                     | None => false
                     end) (pub o).
Lemma typedb_ok cv o : typedb cv o = true -> well_typed cv o.
Proof.
  unfold typedb. rewrite forallb_forall. intros H k v G. apply dget_In in G. specialize (H _ G). cbn [fst snd] in H.
  destruct (declared cv o k) as [e|]; [|discriminate H]. exists e. split; [reflexivity|].
  apply (type_error_iff demo k). apply String.eqb_eq. exact H.
Qed.

(** what is needed, computed *)
Definition crash_ready (m : vmode) (o : sofa) : bool :=
  let o1 := m_obj (reset_convention demo o) in
  let s := detect o1 in
  nodupb (dkeys (pub o)) && nodupb (match custom o with Some cu => dkeys cu | None => [] end) && in_hrir o && typedb cv10 o && is_ok (snd s) && checkableb demo m o cv10 (fixed_sizes (fst s)).
Lemma crash_ready_ok m o : crash_ready m o = true ->
  dicts_ok o /\ convention_of demo o cv10 /\ (forall k, contained o k -> declared cv10 o k <> None)
  /\ well_typed cv10 o /\ checkable demo m o cv10.
Proof.
  unfold crash_ready. cbv zeta. rewrite !andb_true_iff. intros [[[[[H0 H1] H2] H3] H4] H5].
  assert (DO := dicts_check o H0 H1). clear H0 H1. rename DO into H1. apply in_hrir_ok in H2. apply typedb_ok in H3.
  destruct (unique_reset demo o cv10 demo_db_ok H1 H2) as [o1 [RS R]]. rewrite RS in H4, H5. cbn [m_obj fst] in H4, H5.
  split; [exact H1|]. split; [exact H2|]. split.
  { intros k C. apply dget_Some_In in C. destruct C as [v G]. destruct (H3 k v G) as [e [-> _]]. discriminate. }
  split; [exact H3|]. destruct (detect o1) as [s [u|]] eqn:D; [|discriminate H4]. destruct u.
  exact (checkableb_ok demo m o cv10 o1 s R H1 H3 D H5).
Qed.

(** wrong extents of two variables and a wrong unit are reported together *)
Definition broken : sofa :=
  put "ListenerPosition_Units" (VStr false "Metre") (put "Data_Delay" (nums [1; 3] [1; 2; 3]%Z) demo_sofa).
Example C65_case :
  db_ok demo /\ rules_tidy demo /\ dicts_ok broken /\ convention_of demo broken cv10
  /\ (forall k, contained broken k -> declared cv10 broken k <> None)
  /\ well_typed cv10 broken /\ checkable demo VWrite broken cv10
  /\ exists t, m_res (verify demo HRaise VWrite broken) = Err (Exn EValueError (err_head +++ t)).
Proof.
  assert (C : crash_ready VWrite broken = true) by (vm_compute; reflexivity).
  destruct (crash_ready_ok VWrite broken C) as [C1 [C2 [C3 [C4 C5]]]].
  split; [exact demo_db_ok|]. split; [exact demo_rules_tidy|]. split; [exact C1|]. split; [exact C2|]. split; [exact C3|].
  split; [exact C4|]. split; [exact C5|]. eexists. vm_compute. reflexivity.
Qed.

(** an incomplete object with a wrong extent *)
Definition broken_incomplete : sofa :=
  with_pub broken (ddel "Data_SamplingRate" (pub broken)).
Example C65_completes_case :
  no_flags broken_incomplete /\ ~ complete demo broken_incomplete
  /\ dicts_ok broken_incomplete
  /\ (let o1 := m_obj (verify demo HReturn VWrite broken_incomplete) in
      well_typed cv10 o1 /\ checkable demo VWrite o1 cv10)
  /\ is_ok (m_res (verify demo HReturn VWrite broken_incomplete)) = true.
Proof.
  split; [intros cu k e C _; vm_compute in C; discriminate C|]. split.
  { intro C. assert (X : smem "Data_SamplingRate" (dkeys (pub broken_incomplete)) = false) by (vm_compute; reflexivity).
    apply (proj1 (smem_false _ _) X). assert (H : in_hrir broken_incomplete = true) by (vm_compute; reflexivity).
    assert (D : exists e, declared cv10 broken_incomplete "Data_SamplingRate" = Some e /\ is_mandatory (e_flags e) = true).
    { eexists. split; vm_compute; reflexivity. }
    destruct D as [e [D M]]. exact (C cv10 "Data_SamplingRate" e (in_hrir_ok _ H) D M). }
  assert (K : dicts_ok broken_incomplete) by (apply dicts_check; vm_compute; reflexivity).
  split; [exact K|]. split; [|vm_compute; reflexivity]. cbv zeta.
  assert (C : crash_ready VWrite (m_obj (verify demo HReturn VWrite broken_incomplete)) = true) by (vm_compute; reflexivity).
  destruct (crash_ready_ok VWrite _ C) as [_ [_ [_ [C4 C5]]]]. split; [exact C4|exact C5].
Qed.
