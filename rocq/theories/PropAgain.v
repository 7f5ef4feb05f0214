(** Asking again after an upgrade (C108). *)
From Coq Require Import Lia ZArith.
From Verif Require Import Base PyStr PyNum NdArray Sofa Verify Upgrade Demo
  SpecAttr SpecInit SpecVerify SpecUpgrade
  BaseFacts StrFacts AttrFacts CoreFacts OpFacts InitFacts MissingFacts ValidFacts DictFacts IssueFacts DimFacts DemoFacts UpgradeFacts UpdateFacts
  PropVerify PropIssues PropUpgrade PropAsked.
Open Scope string_scope.
Open Scope list_scope.

Lemma kdict_upgrade E t vo : always kdict (upgrade_convention E t vo).
Proof.
  unfold upgrade_convention, apply_upgrade, move_entry, remove_entry, add_missing. alds.
  all: try match goal with |- always _ (modify _) => intros x D; exact D end.
  all: try apply kdict_del_attr. all: alds.
  apply kdict_verify.
Qed.

Lemma json_cancel : forall a b x, a +++ x = b +++ x -> a = b.
Proof.
  induction a as [|c a IH]; intros [|d b] x H; [reflexivity| | |].
  - exfalso. assert (L := f_equal String.length H). rewrite !slength_app in L. cbn [String.length] in L. lia.
  - exfalso. assert (L := f_equal String.length H). rewrite !slength_app in L. cbn [String.length] in L. lia.
  - cbn in H. injection H as -> H. f_equal. exact (IH b x H).
Qed.

Lemma own_default E c v content : db_ok E -> has_file E c v content ->
  states_own "GLOBAL_SOFAConventions" c (sofar_keys content) /\ states_own "GLOBAL_SOFAConventionsVersion" v (sofar_keys content).
Proof.
  intros DB HF. destruct (proj2 DB _ HF) as [c' [v' [N [C' [V' [_ [_ [_ [S1 S2]]]]]]]]]. cbn [fst snd] in *.
  unfold file_name in N.
  destruct (split_unique "_" c (v +++ ".json") c' (v' +++ ".json")) as [-> Q].
  - exact C'.
  - rewrite has_char_app, V'. reflexivity.
  - exact N.
  - apply json_cancel in Q. subst v'. split; assumption.
Qed.

(** the rules offer [targets] for the convention [c] of version [v] *)
Definition rule_for (E : env) (c v : string) (targets : list string) (id : string) : Prop :=
  exists u pre fr post, dget c (upgrades E) = Some u /\ u_from_to u = pre ++ (fr, targets, id) :: post
    /\ In v fr /\ (forall x, In x pre -> ~ In v (fst (fst x))).

(** After an upgrade the object is one of the target: what is offered and told next
    depends on the name and version of the target only. *)
Theorem C108_again :
  forall E o t vo o' ev r targets id, db_ok E -> dicts_ok o -> no_flags o -> plain o ->
  (forall cu, custom o = Some cu -> ~ In "protected" (dkeys cu)) ->
  offers E o targets id -> In t targets -> (forall sp, changes E o id sp -> changes_tidy sp) ->
  upgrade_convention E (Some t) vo o = (o', ev, Ok r) ->
  exists c v, (t = c +++ "_" +++ v \/ t = c +++ "_latest")
    /\ (exists content, has_file E c v content /\ convention_of E o' (sofar_keys content))
    /\ (exists b, dget "GLOBAL_SOFAConventions" (pub o') = Some (VStr b c))
    /\ (exists b, dget "GLOBAL_SOFAConventionsVersion" (pub o') = Some (VStr b v))
    /\ (forall l i, offers E o' l i <-> rule_for E c v l i)
    (* nothing is left to upgrade *)
    /\ (dmem c (deprecations E) = false -> (forall l i, ~ rule_for E c v l i) ->
        forall target vo2, exists o2, upgrade_convention E target vo2 o'
          = (o2, [EvPrint ("Convention " +++ c +++ " v" +++ v +++ " is up to date")], Ok None) /\ pub o2 = pub o')
    (* the next step is offered *)
    /\ (forall l i, rule_for E c v l i -> well_named l ->
        forall vo2, exists o2 ev2, upgrade_convention E None vo2 o' = (o2, ev2, Ok (Some l)) /\ pub o2 = pub o').
Proof.
  intros E o t vo o' ev r targets id DB DO NF PL NP OF IT TD H.
  destruct (C48_upgraded E o t vo o' ev r targets id DB DO NF NP OF IT H) as [sp [c [v [content [CH [HF [T U]]]]]]].
  specialize (U (TD sp CH) (fun k x _ => PL k x)).
  destruct (own_default E c v content DB HF) as [[e1 [b1 [D1 [_ [_ V1]]]]] [e2 [b2 [D2 [_ [_ V2]]]]]].
  destruct (up_stated _ _ _ _ U "GLOBAL_SOFAConventions") as [f1 [w1 [F1 [A1 P1]]]]; [cbn; tauto|].
  destruct (up_stated _ _ _ _ U "GLOBAL_SOFAConventionsVersion") as [f2 [w2 [F2 [A2 P2]]]]; [cbn; tauto|].
  destruct (up_stated _ _ _ _ U "GLOBAL_Version") as [f3 [w3 [F3 [A3 P3]]]]; [cbn; tauto|].
  rewrite D1 in F1. injection F1 as <-. unfold added_default in A1. rewrite V1 in A1. subst w1.
  rewrite D2 in F2. injection F2 as <-. unfold added_default in A2. rewrite V2 in A2. subst w2.
  assert (DO' : dicts_ok o').
  { assert (X := kdict_upgrade E (Some t) vo o). rewrite H in X. exact (X DO). }
  assert (CV : convention_of E o' (sofar_keys content)) by (exists b1, c, (VStr b2 v), content; auto).
  assert (RF : forall l i, offers E o' l i <-> rule_for E c v l i).
  { intros l i. split.
    - intros [b [c0 [b' [v0 [u [pre [fr [post [H1 [H2 [H3 [H4 [H5 H6]]]]]]]]]]]]].
      rewrite P1 in H1. rewrite P2 in H2. injection H1 as <- <-. injection H2 as <- <-. exists u, pre, fr, post. auto.
    - intros [u [pre [fr [post [H3 [H4 [H5 H6]]]]]]]. exists b1, c, b2, v, u, pre, fr, post. auto 8. }
  assert (KEEP : forall target vo2 o2 ev2 x, upgrade_convention E target vo2 o' = (o2, ev2, Ok x) ->
    (forall t0 l i, target = Some t0 -> offers E o' l i -> ~ In t0 l) -> pub o2 = pub o').
  { intros target vo2 o2 ev2 x Q N. exact (proj1 (C47_harmless_partial E target vo2 o' o2 ev2 (Ok x) Q N)). }
  exists c, v. split; [exact T|]. split; [exists content; auto|]. split; [eauto|]. split; [eauto|]. split; [exact RF|]. split.
  - intros ND NR target vo2. destruct (reset_of E o' _ DB DO' CV) as [o1 [R _]].
    destruct (upgrade_after_reset E target vo2 o' o1 R) as [b' [c' [v' [K1 [K2 [Q1 [_ [_ [_ U2]]]]]]]]].
    rewrite P1 in K1. injection K1 as <- <-. rewrite P2 in K2. injection K2 as <-.
    assert (GA : getattr o1 "GLOBAL_Version" = Ok w3) by (unfold getattr; rewrite Q1, P3; reflexivity).
    exists o1. split; [|exact Q1]. rewrite (U2 w3 GA). unfold decide.
    assert (DEP : is_deprecated E c (VStr b2 v) = false).
    { unfold is_deprecated. rewrite ND. cbn [orb]. destruct (dget c (upgrades E)) as [u|] eqn:G3; [|reflexivity].
      destruct (existsb _ (u_from_to u)) eqn:X; [|reflexivity]. exfalso.
      apply existsb_exists in X. destruct X as [ft [I1 I2]].
      destruct (find (fun ft => str_in (VStr b2 v) (fst (fst ft))) (u_from_to u)) as [[[fr l] i]|] eqn:FD.
      - apply (NR l i). apply RF. apply (offers_find E o' b1 c (VStr b2 v) u P1 P2 G3). eauto.
      - assert (Y := find_none _ _ FD ft I1). cbv beta in Y. congruence. }
    rewrite DEP. reflexivity.
  - intros l i RL WN vo2. apply RF in RL.
    destruct (C106_offered E None vo2 o' _ l i b1 c (VStr b2 v) DB DO' CV) as [o2 [lines [_ Q]]];
      [apply dget_Some_In; eauto|exact P1|exact P2|exact RL|exact WN|discriminate|].
    eexists o2, _. split; [exact Q|]. apply (KEEP _ _ _ _ _ Q). discriminate.
Qed.
Print Assumptions C108_again.

(** rules with two steps *)
Definition steps : env :=
  Env (db demo) (rules demo) (aliases demo) (deprecations demo)
    [("Old", UpgradeRule [(["0.4"], ["SimpleFreeFieldHRIR_0.4"], "to_hrir")] [("to_hrir", to_hrir)]);
     ("SimpleFreeFieldHRIR", UpgradeRule [(["0.3"; "0.4"], ["SimpleFreeFieldHRIR_1.0"], "stable")] [("stable", UpgradeSpec [] [] None)])]
    (str_of demo) (type_of demo) (now demo) (sofar_version demo) (python_version demo).
Example C108_case :
  rule_for steps "SimpleFreeFieldHRIR" "0.4" ["SimpleFreeFieldHRIR_1.0"] "stable"
  /\ (forall l i, ~ rule_for steps "SimpleFreeFieldHRIR" "1.0" l i)
  /\ changes_tidy to_hrir
  /\ let a := upgrade_convention steps (Some "SimpleFreeFieldHRIR_0.4") VNo old_junk in
     let b := upgrade_convention steps (Some "SimpleFreeFieldHRIR_1.0") VNo (m_obj a) in
     is_ok (m_res a) = true
     /\ m_res (upgrade_convention steps None VNo (m_obj a)) = Ok (Some ["SimpleFreeFieldHRIR_1.0"])
     /\ is_ok (m_res b) = true
     /\ m_out (upgrade_convention steps None VNo (m_obj b)) = [EvPrint "Convention SimpleFreeFieldHRIR v1.0 is up to date"].
Proof.
  split; [eexists _, [], _, []; split; [reflexivity|]; split; [reflexivity|]; split; [cbn; tauto|intros x []]|].
  split.
  { intros l i [u [pre [fr [post [H1 [H2 [H3 H4]]]]]]]. cbn [dget upgrades steps String.eqb Ascii.eqb Bool.eqb] in H1.
    injection H1 as <-. cbn [u_from_to] in H2.
    destruct pre as [|x pre]; [|destruct pre; discriminate H2]. injection H2 as <- <- <- <-.
    destruct H3 as [H3|[H3|[]]]; discriminate H3. }
  split; [exact (proj1 (proj2 (proj2 C48_case)))|].
  cbv zeta. split; [vm_compute; reflexivity|]. split; [vm_compute; reflexivity|]. split; vm_compute; reflexivity.
Qed.
