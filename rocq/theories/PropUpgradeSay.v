(** C97: upgrade_convention tells what it does. *)
From Verif Require Import Base PyStr PyNum NdArray Sofa Verify Upgrade Demo
  SpecAttr SpecInit SpecVerify SpecUpgrade SpecReport
  BaseFacts StrFacts AttrFacts OpFacts InitFacts ProtFacts AddDelFacts MissingFacts CoreFacts
  ValidFacts RuleFacts VerifyFacts IssueFacts DictFacts DimFacts DemoFacts AxisFacts UpgradeFacts ReportFacts OptionFacts
  UpgradeSayFacts PropVerify PropInit PropUpgrade PropReport.
From Coq Require Import Lia ZArith.
Open Scope string_scope.
Open Scope list_scope.

(** ** The announcements *)
Definition axes_text (l : list nat) : string := "[" +++ join ", " (map nat_str l) +++ "]".
Definition moved_line (sm : string * move) : string :=
  "- Moving " +++ python_name (fst sm) +++ " to " +++ python_name (mv_target (snd sm)) +++ "."
  +++ match mv_axis (snd sm) with
      | None => ""
      | Some (a, b) => " Moving axis " +++ axes_text a +++ " to " +++ axes_text b +++ "."
      end
  +++ match mv_deprecated (snd sm) with
      | None => ""
      | Some d => " WARNING: Dimensions " +++ join ", " d +++ " are now deprecated."
      end.
Definition moved_lines (sp : upgrade_spec) : list string :=
  match u_move sp with [] => ["- No data to move"] | l => map moved_line l end.
Definition deleted_lines (sp : upgrade_spec) : list string :=
  match removals sp with [] => ["- No data to remove"] | l => map (fun k => "- Deleting " +++ k +++ ".") l end.
Definition missing_text (l : list string) : string :=
  match l with
  | [] => "All mandatory data contained."
  | _ => "Added the following missing data with their default values:" +++ newline
         +++ String.concat "" (map (fun k => "- " +++ k +++ " (mandatory)" +++ newline) l)
  end.
Definition closing_lines (sp : upgrade_spec) : list string := match u_message sp with Some m => [m] | None => [] end.

(** the object is verified after the upgrade to the version [v] *)
Definition verified_after (vo : vopt) (v : string) : Prop := vo = VYes \/ vo = VAuto /\ String.prefix "0" v = false.

Lemma move_text_line sm : move_text sm = moved_line sm.
Proof. destruct sm as [s [t [[a b]|] d]]; reflexivity. Qed.

Lemma said_lines A (f : A -> string) g l : (forall x, g x = EvPrint (f x)) -> map g l = map EvPrint (map f l).
Proof. intro H. rewrite map_map. apply map_ext. exact H. Qed.

(** A successful upgrade announces the new convention, every moved and every deleted
    entry, and the missing data that it adds, in this order. Nothing else changes. It
    is verified if wanted, and then it is valid.
    Full claim: for all upgrades, also those that fail; see [C97_refuted] *)
Theorem C97_announced_partial :
  forall E o t vo o' ev r targets id, db_ok E -> rules_tidy E -> dicts_ok o ->
  (forall cu, custom o = Some cu -> ~ In "protected" (dkeys cu)) ->
  offers E o targets id -> In t targets ->
  upgrade_convention E (Some t) vo o = (o', ev, Ok r) ->
  exists sp b c v sv ct vt gv added evv w,
    changes E o id sp /\ t = ct +++ "_" +++ vt
    /\ dget "GLOBAL_SOFAConventions" (pub o) = Some (VStr b c)
    /\ dget "GLOBAL_SOFAConventionsVersion" (pub o) = Some v
    /\ getattr o "GLOBAL_Version" = Ok sv
    /\ ev = map EvPrint (["Upgrading " +++ c +++ " v" +++ py_str E v +++ " to " +++ ct +++ " v" +++ vt
                          +++ " (SOFA version " +++ py_str E sv +++ " to " +++ py_str E gv +++ ")"]
                         ++ moved_lines sp ++ deleted_lines sp ++ [missing_text added] ++ closing_lines sp) ++ evv
    (* what the messages do not name is unchanged *)
    /\ (forall k, ~ In k (stated_keys ++ sources sp ++ targets_of sp ++ removals sp ++ added) ->
          dget k (pub o') = dget k (pub o))
    (* added data were missing *)
    /\ (forall k, In k added -> In k (dkeys (pub o'))
          /\ (In k (stated_keys ++ sources sp ++ targets_of sp ++ removals sp) \/ ~ In k (dkeys (pub o))))
    (* verification *)
    /\ dget "GLOBAL_SOFAConventionsVersion" (pub o') = Some w
    /\ (verified_after vo (py_str E w) -> valid E VWrite o' /\ Forall (fun e => exists w, e = EvWarn w) evv)
    /\ (~ verified_after vo (py_str E w) -> evv = [])
    /\ r = None.
Proof.
  intros E o t vo o' ev r targets id DB RT DO NPC OF IT H.
  destruct (reset_none_or E o) as [[x R]|[o1 R]].
  { unfold upgrade_convention in H. rewrite (bind_fails _ _ _ _ _ _ R) in H. discriminate. }
  destruct (upgrade_after_reset E (Some t) vo o o1 R) as [b [c [v [G1 [G2 [P1 [P2 [P3 [U1 U2]]]]]]]]].
  destruct (getattr o1 "GLOBAL_Version") as [sv|x] eqn:GV.
  2: { rewrite (U1 x eq_refl) in H. discriminate. }
  rewrite (U2 sv eq_refl) in H. clear U1 U2.
  destruct (offers_deprecated E o b c v targets id G1 G2 OF) as [u [fr [G3 [DEP F]]]].
  unfold decide in H. rewrite DEP, G3, F in H. apply smem_In in IT. rewrite IT in H.
  apply bind_Ok in H. destruct H as [o2 [e1 [[] [e2 [H1 [H2 ->]]]]]]. injection H2 as -> <- <-.
  destruct (reset_declared E o o1 DO R) as [b0 [c0 [w [cv0 [_ [_ [_ [_ RS]]]]]]]].
  assert (DO1 : dicts_ok o1).
  { assert (X := kdict_reset E o DO). rewrite R in X. exact X. }
  assert (FC : forall cu, custom o1 = Some cu -> exists cu0, custom o = Some cu0 /\ incl cu cu0).
  { intros cu Q. rewrite (rt_custom _ _ _ RS) in Q. destruct (custom o) as [cu0|]; [|discriminate].
    cbn in Q. inversion Q; subst. exists cu0. split; [reflexivity|]. intros y Y. apply filter_In in Y. apply Y. }
  destruct (apply_upgrade_said E c (py_str E v) (py_str E sv) t id vo o1 o' e1 tt DO1 H1)
    as [u' [sp [ct [vt [cv [gv [od [oe [ea [evv [ver [A1 [A2 [A3 [A4 [A5 [A6 [A7 [A8 [A9 [A10 [A11 [A12 A13]]]]]]]]]]]]]]]]]]]]]]].
  rewrite G3 in A1. injection A1 as <-.
  (* the convention of the upgraded object *)
  destruct (add_missing_Ok E true false true od oe ea tt A7) as [o6 [B1 [B2 [B3 B4]]]].
  destruct (reset_declared E od o6 A9 B1) as [b1 [c1 [w1 [cv1 [X1 [X2 [X3 [X4 RT1]]]]]]]].
  assert (NL := verify_cv_number E c1 (py_str E w1) X3 DB).
  destruct (load_own_file E c1 (py_str E w1) cv1 DB X4) as [v1 [content [_ [_ [_ [LP _]]]]]].
  destruct (load_version E c1 (py_str E w1) cv1 DB X4) as [b2 [v2 [_ [FS [_ VV]]]]]. specialize (VV NL). subst v2.
  assert (NP : ~ In "protected" (dkeys (conv o6))).
  { intro I. apply dget_Some_In in I. destruct I as [e Q]. rewrite (rt_conv _ _ _ RT1) in Q. unfold declared in Q.
    destruct (dget "protected" cv1) as [e'|] eqn:Q'; [apply LP; apply dget_Some_In; eauto|].
    unfold own_custom in Q. unfold fewer_custom in A11. destruct (custom od) as [cu|]; [|discriminate].
    apply dget_In in Q. apply filter_In in Q. destruct Q as [Q _]. destruct A11 as [cu0 [C0 I0]].
    destruct (FC cu0 C0) as [cu1 [C1 I1]]. apply (NPC cu1 C1). apply I0, I1 in Q. apply (in_map fst) in Q. exact Q. }
  destruct (B4 NP) as [_ [_ [K1 _]]].
  assert (NPe : ~ In "protected" (dkeys (conv oe))) by (rewrite B2; exact NP).
  assert (EA := add_missing_said E true false true od oe ea tt A7 NPe). cbn [andb] in EA.
  destruct (C70_added_data_reported_partial E true false true od oe ea A7 NPe) as [_ [_ [AD _]]].
  assert (TX : added_text (conv oe) (added_names od oe) = missing_text (added_names od oe)).
  { unfold added_text, missing_text. destruct (added_names od oe) as [|k l] eqn:L; [reflexivity|]. rewrite <- L in *.
    do 3 f_equal. apply map_ext_in. intros j I. apply AD in I. destruct I as [_ [e [D Q]]].
    unfold added_line. rewrite D. unfold requested in Q.
    destruct (is_mandatory (e_flags e)); [reflexivity|discriminate Q]. }
  (* the object after the verification *)
  assert (PE : pub o' = pub oe).
  { destruct ver; [|destruct A13 as [-> _]; reflexivity]. destruct A13 as [y Y].
    assert (V := proj1 (verify_raise_pub (normative_keys E) E VWrite (with_prot oe true))).
    unfold verify in Y. rewrite Y in V. exact V. }
  assert (VE : dget "GLOBAL_SOFAConventionsVersion" (pub oe) = Some w1) by (apply K1; exact X2).
  exists sp, b, c, v, sv, ct, vt, (e_default gv), (added_names od oe), evv.
  exists w1.
  split; [exists b, c, u; auto|]. split.
  { apply (f_equal (join "_")) in A3. change "_" with (str1 "_") in A3. rewrite split_join in A3. exact A3. }
  split; [exact G1|]. split; [exact G2|]. split; [unfold getattr in *; rewrite P1 in GV; exact GV|]. split.
  { rewrite app_nil_r, A6, EA, TX. cbn [app map]. f_equal. rewrite !map_app. cbn [map]. rewrite <- !app_assoc.
    f_equal; [|f_equal; [|cbn [app]; f_equal; unfold closing_lines; destruct (u_message sp); reflexivity]].
    - unfold moved_lines. destruct (u_move sp) as [|sm l]; [reflexivity|].
      apply (said_lines _ moved_line (fun sm => EvPrint (move_text sm)) (sm :: l)). intro y. rewrite move_text_line. reflexivity.
    - unfold deleted_lines, removals. destruct (u_remove sp) as [|z l]; [reflexivity|].
      change (map python_name (z :: l)) with (python_name z :: map python_name l). cbn [map]. f_equal.
      rewrite !map_map. reflexivity. }
  split.
  { intros k N. rewrite !in_app_iff in N. rewrite PE.
    assert (Q : dget k (pub od) = dget k (pub o)) by (rewrite <- P1; apply A8; tauto).
    rewrite <- Q. destruct (dget k (pub od)) as [x|] eqn:Q1; [apply K1; exact Q1|].
    destruct (dget k (pub oe)) as [y|] eqn:Q2; [|reflexivity]. exfalso. apply N.
    do 4 right. unfold added_names. apply filter_In. split; [apply dget_Some_In; eauto|].
    rewrite negb_true_iff. apply smem_false. apply dget_None. exact Q1. }
  split.
  { intros k I. unfold added_names in I. apply filter_In in I. destruct I as [I1 I2]. rewrite negb_true_iff in I2. apply smem_false in I2.
    split; [rewrite PE; exact I1|].
    destruct (in_dec String.string_dec k (stated_keys ++ sources sp ++ targets_of sp ++ removals sp)) as [Y|N]; [left; exact Y|right].
    rewrite !in_app_iff in N. rewrite <- P1. apply dget_None. rewrite <- A8 by tauto. apply dget_None. exact I2. }
  split; [rewrite PE; exact VE|].
  assert (VER : ver = true <-> verified_after vo (py_str E w1)).
  { unfold verified_after. destruct vo.
    - destruct A12 as [w' [W1 W2]]. unfold getattr in W1. rewrite VE in W1. injection W1 as <-.
      destruct w1 as [b' v'|x|a|l]; try discriminate W2. cbn [stable_version py_str] in *.
      rewrite (stable_iff v' FS) in W2. injection W2 as <-. rewrite negb_true_iff. split; [auto|]. intros [Y|[_ Y]]; [discriminate Y|exact Y].
    - subst ver. split; auto.
    - subst ver. split; [discriminate|]. intros [Y|[Y _]]; discriminate Y. }
  split; [|split; [|reflexivity]].
  - intro V. apply VER in V. subst ver. destruct A13 as [y Y]. split.
    + assert (D' : dicts_ok o').
      { assert (X := kdict_verify E HRaise VWrite (with_prot oe true)). rewrite Y in X. apply X. exact A10. }
      apply (C11_verify_iff_valid E VWrite o' DB RT D').
      assert (T := verify_raise_twice E VWrite (with_prot oe true)). rewrite Y in T. cbn [m_obj fst] in T. rewrite T. reflexivity.
    + assert (S := says_ok usual _ _ _ _ _ (verify_usual E VWrite) Y).
      eapply Forall_impl; [|exact S]. intros e [m [-> _]]. eauto.
  - intro V. destruct ver; [exfalso; apply V, VER; reflexivity|]. apply A13.
Qed.
Print Assumptions C97_announced_partial.

Example C97_case :
  let r := upgrade_convention demo (Some "SimpleFreeFieldHRIR_1.0") VAuto old_junk in
  is_ok (m_res r) = true
  /\ m_out r = map EvPrint
       [ "Upgrading Old v0.4 to SimpleFreeFieldHRIR v1.0 (SOFA version 1.0 to 2.1)";
         "- Moving Data_Mat to Data_IR. Moving axis [1] to [2].";
         "- Deleting Junk.";
         missing_text ["GLOBAL_Conventions"; "GLOBAL_Title"; "ListenerPosition"; "ListenerPosition_Type"; "ListenerPosition_Units";
                       "ReceiverPosition_Type"; "ReceiverPosition_Units"; "EmitterPosition"; "EmitterPosition_Type";
                       "EmitterPosition_Units"; "Data_SamplingRate"; "Data_SamplingRate_Units"; "Data_Delay"];
         "check the data" ].
Proof. cbv zeta. split; vm_compute; reflexivity. Qed.

(** Data that can not be moved are lost without a message: they are deleted before the
    attempt, and the announcement follows after it. *)
Definition old_text : sofa := put "Data_Mat" (VStr false "text") demo_old.
Theorem C97_refuted :
  let r := upgrade_convention demo (Some "SimpleFreeFieldHRIR_1.0") VAuto old_text in
  dicts_ok old_text /\ offers demo old_text ["SimpleFreeFieldHRIR_1.0"] "to_hrir"
  /\ m_res r = Err (Exn EAttributeError "ndim")
  /\ m_out r = [EvPrint "Upgrading Old v0.4 to SimpleFreeFieldHRIR v1.0 (SOFA version 1.0 to 2.1)"]
  /\ dget "Data_Mat" (pub old_text) = Some (VStr false "text")
  /\ dget "Data_Mat" (pub (m_obj r)) = None.
Proof.
  cbv zeta. split.
  { apply put_dicts. exact demo_old_dicts. }
  split.
  { exists false, "Old", false, "0.4", (UpgradeRule [(["0.4"], ["SimpleFreeFieldHRIR_1.0"], "to_hrir")] [("to_hrir", to_hrir)]),
      [], ["0.4"], [].
    split; [vm_compute; reflexivity|]. split; [vm_compute; reflexivity|]. split; [reflexivity|].
    split; [reflexivity|]. split; [left; reflexivity|]. intros x []. }
  split; [vm_compute; reflexivity|]. split; [vm_compute; reflexivity|]. split; vm_compute; reflexivity.
Qed.
Print Assumptions C97_refuted.
