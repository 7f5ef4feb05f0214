(** What is told when asking for upgrades (C106). *)
From Coq Require Import Lia ZArith.
From Verif Require Import Base PyStr PyNum NdArray Sofa Verify Upgrade Demo
  SpecAttr SpecInit SpecVerify SpecUpgrade
  BaseFacts StrFacts AttrFacts CoreFacts OpFacts IssueFacts DimFacts DemoFacts UpgradeFacts PropVerify PropIssues PropUpgrade.
Open Scope string_scope.
Open Scope list_scope.

(** the line for the offered target "convention_version" *)
Definition offered_line (t r : string) : Prop :=
  exists c v, t = c +++ "_" +++ v /\ has_char "_" c = false /\ has_char "_" v = false
    /\ r = "- " +++ c +++ " v" +++ v +++ nl.

(** all targets name a convention and a version *)
Definition well_named (targets : list string) : Prop :=
  forall t, In t targets -> exists c v, t = c +++ "_" +++ v /\ has_char "_" c = false /\ has_char "_" v = false.

Lemma target_line_named c v : has_char "_" c = false -> has_char "_" v = false ->
  target_line (c +++ "_" +++ v) = Ok ("- " +++ c +++ " v" +++ v +++ nl).
Proof.
  intros H1 H2. unfold target_line. change (c +++ "_" +++ v) with (c +++ String "_" v).
  change (split "_" (c +++ String "_" v)) with (split (str1 "_") (c +++ String "_" v)).
  rewrite (split_app "_" c v H1), (split_no_char "_" v H2). reflexivity.
Qed.

Lemma target_lines targets : well_named targets ->
  exists lines, rconcat target_line targets = Ok (sconcat (fun r => r) lines) /\ Forall2 offered_line targets lines.
Proof.
  induction targets as [|t l IH]; intro W; [exists []; split; [reflexivity|constructor]|].
  destruct (W t (or_introl eq_refl)) as [c [v [-> [H1 H2]]]].
  destruct IH as [lines [L F]]; [intros x I; apply W; right; exact I|].
  exists (("- " +++ c +++ " v" +++ v +++ nl) :: lines). cbn [rconcat sconcat].
  rewrite (target_line_named c v H1 H2). cbn [rbind]. rewrite L. cbn [rbind]. split; [reflexivity|].
  constructor; [exists c, v; auto|exact F].
Qed.

(** Asking for upgrades, or naming a target that is not offered, tells all targets
    and returns them. *)
Theorem C106_offered : forall E target vo o cv targets id b c v,
  db_ok E -> dicts_ok o -> convention_of E o cv -> contained o "GLOBAL_Version" ->
  dget "GLOBAL_SOFAConventions" (pub o) = Some (VStr b c) ->
  dget "GLOBAL_SOFAConventionsVersion" (pub o) = Some v ->
  offers E o targets id -> well_named targets ->
  (forall t, target = Some t -> ~ In t targets) ->
  exists o' lines, Forall2 offered_line targets lines
    /\ upgrade_convention E target vo o =
       (o', match target with Some t => [EvPrint (t +++ " is invalid.")] | None => [] end
            ++ [EvPrint (c +++ " v" +++ py_str E v +++ " can be upgraded to:" +++ nl +++ sconcat (fun r => r) lines)],
        Ok (Some targets)).
Proof.
  intros E target vo o cv targets id b c v DB DO CV GV G1 G2 OF WN NT.
  destruct (reset_of E o cv DB DO CV) as [o1 [R _]].
  destruct (upgrade_after_reset E target vo o o1 R) as [b' [c' [v' [K1 [K2 [P1 [_ [_ [_ U2]]]]]]]]].
  rewrite G1 in K1. injection K1 as <- <-. rewrite G2 in K2. injection K2 as <-.
  apply dget_Some_In in GV. destruct GV as [sv GV].
  assert (GA : getattr o1 "GLOBAL_Version" = Ok sv) by (unfold getattr; rewrite P1, GV; reflexivity).
  destruct (offers_deprecated E o b c v targets id G1 G2 OF) as [u [fr [F1 [F2 F3]]]].
  destruct (target_lines targets WN) as [lines [L FL]].
  exists o1, lines. split; [exact FL|]. rewrite (U2 sv GA). unfold decide. rewrite F2, F1, F3.
  destruct target as [t|].
  - destruct (smem t targets) eqn:M; [exfalso; apply smem_In in M; exact (NT t eq_refl M)|].
    unfold bind, emit, lift, ret. rewrite L. reflexivity.
  - unfold bind, emit, lift, ret. rewrite L. reflexivity.
Qed.
Print Assumptions C106_offered.

(** If nothing is offered one message tells why. Missing for the full claim: the request
    can raise, see [C106_refuted]. *)
Theorem C106_nothing_partial : forall E target vo o o' ev x b c v,
  upgrade_convention E target vo o = (o', ev, Ok x) -> (forall l id, ~ offers E o l id) ->
  dget "GLOBAL_SOFAConventions" (pub o) = Some (VStr b c) ->
  dget "GLOBAL_SOFAConventionsVersion" (pub o) = Some v ->
  x = None /\
  ((dmem c (deprecations E) = true /\ dget c (upgrades E) = None
      /\ ev = [EvPrint ("Convention " +++ c +++ " v" +++ py_str E v +++ " is outdated but is missing upgrade rules")])
   \/ (dmem c (deprecations E) = false
      /\ ev = [EvPrint ("Convention " +++ c +++ " v" +++ py_str E v +++ " is up to date")])).
Proof.
  intros E target vo o o' ev x b c v H NO G1 G2.
  destruct (reset_none_or E o) as [[y R]|[o1 R]].
  { unfold upgrade_convention in H. rewrite (bind_fails _ _ _ _ _ _ R) in H. discriminate. }
  destruct (upgrade_after_reset E target vo o o1 R) as [b' [c' [v' [K1 [K2 [_ [_ [_ [U1 U2]]]]]]]]].
  rewrite G1 in K1. injection K1 as <- <-. rewrite G2 in K2. injection K2 as <-.
  destruct (getattr o1 "GLOBAL_Version") as [sv|y]; [|rewrite (U1 y eq_refl) in H; discriminate].
  rewrite (U2 sv eq_refl) in H. unfold decide in H.
  destruct (is_deprecated E c v) eqn:DEP.
  - destruct (dget c (upgrades E)) as [u|] eqn:G3.
    + destruct (find _ (u_from_to u)) as [[[fr targets] id]|] eqn:F; [|discriminate].
      exfalso. apply (NO targets id). apply (offers_find E o b c v u G1 G2 G3). eauto.
    + injection H as <- <- <-. split; [reflexivity|]. left. unfold is_deprecated in DEP. rewrite G3, orb_false_r in DEP. auto.
  - injection H as <- <- <-. split; [reflexivity|]. right. unfold is_deprecated in DEP. apply orb_false_iff in DEP. tauto.
Qed.
Print Assumptions C106_nothing_partial.

Example C106_case :
  dicts_ok demo_old /\ (exists cv, convention_of demo demo_old cv) /\ contained demo_old "GLOBAL_Version"
  /\ offers demo demo_old ["SimpleFreeFieldHRIR_1.0"] "to_hrir" /\ well_named ["SimpleFreeFieldHRIR_1.0"]
  /\ m_out (upgrade_convention demo (Some "GeneralFIR_1.0") VAuto demo_old)
    = [EvPrint "GeneralFIR_1.0 is invalid.";
       EvPrint ("Old v0.4 can be upgraded to:" +++ nl +++ "- SimpleFreeFieldHRIR v1.0" +++ nl)]
  /\ m_out (upgrade_convention demo None VAuto demo_sofa)
    = [EvPrint "Convention SimpleFreeFieldHRIR v1.0 is up to date"].
Proof.
  split; [exact demo_old_dicts|]. split.
  { exists (sofar_keys old_conv). exists false, "Old", (VStr false "0.4"), old_conv.
    split; [vm_compute; reflexivity|]. split; [vm_compute; reflexivity|]. split; [|reflexivity].
    right. right. left. reflexivity. }
  split; [apply dget_Some_In; eexists; vm_compute; reflexivity|]. split.
  { exists false, "Old", false, "0.4", (UpgradeRule [(["0.4"], ["SimpleFreeFieldHRIR_1.0"], "to_hrir")]
      [("to_hrir", UpgradeSpec [("Data.Mat", Move "Data.IR" (Some ([1], [2])) None)] ["Junk"] (Some "check the data"))]), [], ["0.4"], [].
    split; [vm_compute; reflexivity|]. split; [vm_compute; reflexivity|]. split; [reflexivity|]. split; [reflexivity|].
    split; [left; reflexivity|]. intros x []. }
  split.
  { intros t [<-|[]]. exists "SimpleFreeFieldHRIR", "1.0". split; [|split]; reflexivity. }
  split; vm_compute; reflexivity.
Qed.

(** The convention is deprecated and has rules, but not for this version: the request
    raises an error about a local name instead of telling anything. *)
Definition old_rules : env :=
  Env (db demo) (rules demo) (aliases demo) (deprecations demo)
    [("Old", UpgradeRule [(["0.3"], ["SimpleFreeFieldHRIR_1.0"], "to_hrir")] [])]
    (str_of demo) (type_of demo) (now demo) (sofar_version demo) (python_version demo).
Theorem C106_refuted :
  (exists cv, convention_of old_rules demo_old cv) /\ contained demo_old "GLOBAL_Version"
  /\ m_out (upgrade_convention old_rules None VAuto demo_old) = []
  /\ m_res (upgrade_convention old_rules None VAuto demo_old) = Err (Exn EUnboundLocalError "target_id").
Proof.
  split.
  { exists (sofar_keys old_conv). exists false, "Old", (VStr false "0.4"), old_conv.
    split; [vm_compute; reflexivity|]. split; [vm_compute; reflexivity|]. split; [|reflexivity].
    right. right. left. reflexivity. }
  split; [apply dget_Some_In; eexists; vm_compute; reflexivity|].
  split; vm_compute; reflexivity.
Qed.
Print Assumptions C106_refuted.
