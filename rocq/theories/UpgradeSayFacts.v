(** Facts: the messages of upgrade_convention. *)
From Verif Require Import Base PyStr PyNum NdArray Sofa Verify Upgrade SpecAttr SpecInit SpecVerify SpecUpgrade SpecReport
  BaseFacts StrFacts AttrFacts OpFacts InitFacts ProtFacts AddDelFacts MissingFacts CoreFacts
  ValidFacts RuleFacts DictFacts DimFacts AxisFacts UpgradeFacts ReportFacts.
Open Scope string_scope.
Open Scope list_scope.

Lemma set_frame name v o o' ev u : set_attr name v o = (o', ev, Ok u) ->
  ev = [] /\ (forall k, k <> name -> dget k (pub o') = dget k (pub o)) /\ custom o' = custom o.
Proof.
  unfold set_attr. destruct (is_private name || _); [discriminate|]. destruct (prot o && negb _); [discriminate|].
  destruct (in_ro name (ro o) && prot o); [discriminate|].
  destruct (String.eqb name "protected").
  - destruct v as [|[]| |]; try discriminate; intro H; injection H as <- <- _; cbn; auto.
  - destruct (normalize v) as [w|]; [|discriminate]. intro H; injection H as <- <- _. cbn.
    split; [reflexivity|]. split; [|reflexivity]. intros k N. apply dget_dset_other. exact N.
Qed.

Lemma del_frame name o o' ev u : del_attr name o = (o', ev, Ok u) ->
  ev = [] /\ (forall k, k <> name -> dget k (pub o') = dget k (pub o)) /\ fewer_custom o o'.
Proof.
  unfold del_attr. destruct (is_private name); [discriminate|]. destruct (negb _); [discriminate|].
  match goal with |- match ?c with Err _ => _ | Ok _ => _ end = _ -> _ => destruct c as [[]|] end; try discriminate.
  destruct (dmem name (pub o)); [|discriminate]. intro H; injection H as <- <- _.
  split; [reflexivity|]. split; [intros k N; cbn; apply dget_ddel_other; exact N|].
  unfold fewer_custom. cbn. destruct (custom o) as [c|]; [|reflexivity]. exists c. split; [reflexivity|apply ddel_incl].
Qed.

Definition move_text (sm : string * move) : string :=
  "- Moving " +++ python_name (fst sm) +++ " to " +++ python_name (mv_target (snd sm)) +++ "."
        +++ match mv_axis (snd sm) with
            | None => ""
            | Some ax => " Moving axis " +++ list_str (fst ax) +++ " to " +++ list_str (snd ax) +++ "."
            end
        +++ match mv_deprecated (snd sm) with
            | None => ""
            | Some d => " WARNING: Dimensions " +++ join ", " d +++ " are now deprecated."
            end.

Lemma move_said sm o o' ev u : move_entry sm o = (o', ev, Ok u) ->
  ev = [EvPrint (move_text sm)]
  /\ (forall k, k <> python_name (fst sm) -> k <> python_name (mv_target (snd sm)) -> dget k (pub o') = dget k (pub o))
  /\ fewer_custom o o'.
Proof.
  destruct sm as [s m]. intro H. unfold move_entry in H. cbv zeta in H. rewrite !sofar_name_python in H. rewrite bind_get in H.
  apply bind_Ok in H. destruct H as [o1 [e1 [v [e2 [H1 [H2 ->]]]]]].
  assert (o1 = o /\ e1 = []) as [-> ->] by (unfold lift in H1; destruct (getattr o _); inversion H1; auto). clear H1.
  apply bind_Ok in H2. destruct H2 as [o2 [e1 [[] [e4 [H1 [H2 ->]]]]]].
  destruct (del_frame _ _ _ _ _ H1) as [-> [F1 C1]].
  apply bind_Ok in H2. destruct H2 as [o3 [e5 [w [e6 [H2 [H3 ->]]]]]].
  assert (o3 = o2 /\ e5 = []) as [-> ->].
  { cbn [snd] in H2. destruct (mv_axis m) as [ax|]; [|inversion H2; auto]. unfold lift in H2. destruct (move_axes v ax); inversion H2; auto. }
  apply bind_Ok in H3. destruct H3 as [o4 [e7 [[] [e8 [H3 [H4 ->]]]]]].
  destruct (set_frame _ _ _ _ _ _ H3) as [-> [F2 C2]].
  injection H4 as <- <- _. split; [reflexivity|]. split.
  - intros k N1 N2. rewrite (F2 k N2). apply F1. exact N1.
  - unfold fewer_custom in *. rewrite C2. exact C1.
Qed.

Lemma moves_said l : forall o o' ev u, mfor l move_entry o = (o', ev, Ok u) ->
  ev = map (fun sm => EvPrint (move_text sm)) l
  /\ (forall k, ~ In k (map (fun sm : string * move => python_name (fst sm)) l) ->
        ~ In k (map (fun sm : string * move => python_name (mv_target (snd sm))) l) -> dget k (pub o') = dget k (pub o))
  /\ fewer_custom o o'.
Proof.
  induction l as [|sm l IH]; intros o o' ev u H.
  { injection H as <- <- _. split; [reflexivity|]. split; [reflexivity|apply fewer_refl]. }
  cbn [mfor] in H. apply bind_Ok in H. destruct H as [o1 [e1 [[] [e2 [H1 [H2 ->]]]]]].
  destruct (move_said _ _ _ _ _ H1) as [-> [F1 C1]]. destruct (IH _ _ _ _ H2) as [-> [F2 C2]].
  split; [reflexivity|]. split.
  - cbn [map]. intros k N1 N2. rewrite F2.
    + apply F1; intros ->; [apply N1|apply N2]; left; reflexivity.
    + intro I. apply N1. right. exact I.
    + intro I. apply N2. right. exact I.
  - eapply fewer_trans; eassumption.
Qed.

Lemma removes_said l : forall o o' ev u, mfor l remove_entry o = (o', ev, Ok u) ->
  ev = map (fun t => EvPrint ("- Deleting " +++ python_name t +++ ".")) l
  /\ (forall k, ~ In k (map python_name l) -> dget k (pub o') = dget k (pub o))
  /\ fewer_custom o o'.
Proof.
  induction l as [|t l IH]; intros o o' ev u H.
  { injection H as <- <- _. split; [reflexivity|]. split; [reflexivity|apply fewer_refl]. }
  cbn [mfor] in H. apply bind_Ok in H. destruct H as [o1 [e1 [[] [e2 [H1 [H2 ->]]]]]].
  unfold remove_entry in H1. rewrite sofar_name_python in H1.
  apply bind_Ok in H1. destruct H1 as [o2 [e3 [[] [e4 [H1 [H3 ->]]]]]]. injection H3 as <- <-.
  destruct (del_frame _ _ _ _ _ H1) as [-> [F1 C1]]. destruct (IH _ _ _ _ H2) as [-> [F2 C2]].
  split; [reflexivity|]. split.
  - cbn [map]. intros k N. rewrite F2; [|intro I; apply N; right; exact I]. apply F1. intros ->. apply N. left. reflexivity.
  - eapply fewer_trans; eassumption.
Qed.

Lemma stated_said cv l : forall o o' ev u,
  mfor l (fun k => do e <- lift (dgetE k cv); set_attr k (e_default e)) o = (o', ev, Ok u) ->
  ev = [] /\ (forall k, ~ In k l -> dget k (pub o') = dget k (pub o)) /\ custom o' = custom o.
Proof.
  induction l as [|t l IH]; intros o o' ev u H; [injection H as <- <- _; auto|].
  cbn [mfor] in H. apply bind_Ok in H. destruct H as [o1 [e1 [[] [e2 [H1 [H2 ->]]]]]].
  apply bind_Ok in H1. destruct H1 as [o2 [e3 [e [e4 [H1 [H3 ->]]]]]].
  assert (o2 = o /\ e3 = []) as [-> ->] by (unfold lift in H1; destruct (dgetE t cv); inversion H1; auto).
  destruct (set_frame _ _ _ _ _ _ H3) as [-> [F1 C1]]. destruct (IH _ _ _ _ H2) as [-> [F2 C2]].
  split; [reflexivity|]. split; [|congruence]. intros k N. rewrite F2; [|intro I; apply N; right; exact I].
  apply F1. intros ->. apply N. left. reflexivity.
Qed.

Lemma apply_upgrade_said E c v sv t id vo o o' ev u : dicts_ok o ->
  apply_upgrade E c v sv t id vo o = (o', ev, Ok u) ->
  exists ur sp ct vt cv gv od oe ea evv ver,
    dget c (upgrades E) = Some ur /\ dget id (u_specs ur) = Some sp
    /\ split "_" t = [ct; vt] /\ load_convention E ct vt = Ok cv /\ dget "GLOBAL_Version" cv = Some gv
    /\ ev = EvPrint ("Upgrading " +++ c +++ " v" +++ v +++ " to " +++ ct +++ " v" +++ vt +++ " (SOFA version "
                     +++ sv +++ " to " +++ py_str E (e_default gv) +++ ")")
            :: match u_move sp with [] => [EvPrint "- No data to move"] | l => map (fun sm => EvPrint (move_text sm)) l end
            ++ match u_remove sp with [] => [EvPrint "- No data to remove"]
               | l => map (fun t => EvPrint ("- Deleting " +++ python_name t +++ ".")) l end
            ++ ea ++ match u_message sp with Some m => [EvPrint m] | None => [] end ++ evv
    /\ add_missing E true false true od = (oe, ea, Ok tt)
    /\ (forall k, ~ In k stated_keys -> ~ In k (sources sp) -> ~ In k (targets_of sp) -> ~ In k (removals sp) ->
          dget k (pub od) = dget k (pub o))
    /\ dicts_ok od /\ dicts_ok oe /\ fewer_custom o od
    /\ match vo with VYes => ver = true | VNo => ver = false
       | VAuto => exists w, getattr oe "GLOBAL_SOFAConventionsVersion" = Ok w /\ stable_version w = Ok ver end
    /\ (if ver : bool then exists r, verify E HRaise VWrite (with_prot oe true) = (o', evv, Ok r)
        else o' = with_prot oe true /\ evv = []).
Proof.
  intros DO H. unfold apply_upgrade in H.
  apply bind_Ok in H. destruct H as [o1 [e1 [ur [e2 [H1 [H ->]]]]]].
  unfold lift, dgetE in H1. destruct (dget c (upgrades E)) as [ur'|] eqn:G1; [|discriminate].
  injection H1 as -> <- ->.
  apply bind_Ok in H. destruct H as [o2 [e1 [sp [e3 [H1 [H ->]]]]]].
  unfold lift, dgetE in H1. destruct (dget id (u_specs ur)) as [sp'|] eqn:G2; [|discriminate].
  injection H1 as -> <- ->.
  apply bind_Ok in H. destruct H as [o1 [e1 [cvt [e4 [H1 [H ->]]]]]].
  unfold lift in H1. destruct (split "_" t) as [|ct [|vt [|? ?]]] eqn:G3; try discriminate.
  injection H1 as -> <- <-. cbn [fst snd] in H.
  apply bind_Ok in H. destruct H as [o2' [e1 [cv [e5 [H1 [H ->]]]]]].
  unfold lift in H1. destruct (load_convention E ct vt) as [cv'|] eqn:G4; [|discriminate].
  injection H1 as -> <- ->.
  apply bind_Ok in H. destruct H as [o3 [e6 [[] [e7 [H1 [H ->]]]]]]. injection H1 as <- <-.
  apply bind_Ok in H. destruct H as [o3 [e8 [gv [e9 [H1 [H ->]]]]]].
  unfold lift, dgetE in H1. destruct (dget "GLOBAL_Version" cv) as [gv'|] eqn:G5; [|discriminate].
  injection H1 as <- <- ->.
  apply bind_Ok in H. destruct H as [o3 [e6 [[] [e10 [H1 [H ->]]]]]]. injection H1 as <- <-.
  apply bind_Ok in H. destruct H as [o3 [e6 [[] [e11 [H1 [H ->]]]]]]. injection H1 as <- <-.
  match type of H with _ ?x = _ => set (oa := x) in * end.
  apply bind_Ok in H. destruct H as [ob [e6 [[] [e12 [HS [H ->]]]]]].
  apply bind_Ok in H. destruct H as [oc [e13 [[] [e14 [HM [H ->]]]]]].
  apply bind_Ok in H. destruct H as [oc' [e15 [[] [e16 [H1 [H ->]]]]]].
  assert (oc' = oc /\ e15 = match u_move sp with [] => [EvPrint "- No data to move"] | _ => [] end) as [-> ->]
    by (destruct (u_move sp); inversion H1; auto). clear H1.
  apply bind_Ok in H. destruct H as [od [e17 [[] [e18 [HR [H ->]]]]]].
  apply bind_Ok in H. destruct H as [od' [e19 [[] [e20 [H1 [H ->]]]]]].
  assert (od' = od /\ e19 = match u_remove sp with [] => [EvPrint "- No data to remove"] | _ => [] end) as [-> ->]
    by (destruct (u_remove sp); inversion H1; auto). clear H1.
  apply bind_Ok in H. destruct H as [oe [e21 [[] [e22 [HA [H ->]]]]]].
  apply bind_Ok in H. destruct H as [of [e23 [[] [e24 [H1 [H ->]]]]]]. injection H1 as <- <-.
  apply bind_Ok in H. destruct H as [og [e25 [[] [e26 [H1 [H ->]]]]]].
  assert (og = with_prot oe true /\ e25 = match u_message sp with Some m => [EvPrint m] | None => [] end) as [-> ->]
    by (destruct (u_message sp); inversion H1; auto). clear H1.
  rewrite bind_get in H.
  apply bind_Ok in H. destruct H as [oi [e29 [ver [e30 [H1 [H ->]]]]]].
  assert (V : oi = with_prot oe true /\ e29 = [] /\
    match vo with VYes => ver = true | VNo => ver = false
       | VAuto => exists w, getattr oe "GLOBAL_SOFAConventionsVersion" = Ok w /\ stable_version w = Ok ver end).
  { destruct vo.
    - apply bind_Ok in H1; destruct H1 as [o9 [e31 [y [e32 [A1 [A2 ->]]]]]].
      unfold lift in *. change (getattr (with_prot oe true) "GLOBAL_SOFAConventionsVersion") with (getattr oe "GLOBAL_SOFAConventionsVersion") in A1.
      destruct (getattr oe _) as [w|]; inversion A1; subst.
      destruct (stable_version y) as [b|] eqn:SV; inversion A2; subst. eauto 6.
    - inversion H1; auto.
    - inversion H1; auto. }
  destruct V as [-> [-> V]].
  assert (FIN : if ver then exists r, verify E HRaise VWrite (with_prot oe true) = (o', e30, Ok r)
        else o' = with_prot oe true /\ e30 = []).
  { destruct ver; [|inversion H; auto].
    apply bind_Ok in H. destruct H as [oj [e33 [y [e34 [A1 [A2 ->]]]]]]. injection A2 as <- <- _.
    rewrite app_nil_r. eauto. }
  assert (DOa : dicts_ok oa) by exact DO.
  assert (DOb : dicts_ok ob).
  { assert (X := fun K => (K : always kdict (mfor upgrade_keys (fun k => do e <- lift (dgetE k cv); set_attr k (e_default e)))) oa).
    rewrite HS in X. apply X; [|exact DOa]. alds. }
  assert (DOc : dicts_ok oc).
  { assert (X := fun K => (K : always kdict (mfor (u_move sp) move_entry)) ob).
    rewrite HM in X. apply X; [|exact DOb]. apply always_mfor; [typeclasses eauto..|].
    intros [s m]. unfold move_entry. repeat (intros; cbv beta zeta; first [apply kdict_del_attr|ald]). }
  assert (DOd : dicts_ok od).
  { assert (X := fun K => (K : always kdict (mfor (u_remove sp) remove_entry)) oc).
    rewrite HR in X. apply X; [|exact DOc]. apply always_mfor; [typeclasses eauto..|].
    intros s. unfold remove_entry. repeat (intros; cbv beta zeta; first [apply kdict_del_attr|ald]). }
  assert (DOe : dicts_ok oe).
  { assert (X := step_dicts E od (OMissing true false true) DOd). unfold step in X. cbn [run_op] in X. rewrite HA in X. exact X. }
  destruct (stated_said cv upgrade_keys oa ob e6 tt HS) as [-> [S1 S2]].
  destruct (moves_said _ _ _ _ _ HM) as [-> [M1 M2]]. destruct (removes_said _ _ _ _ _ HR) as [-> [R1 R2]].
  exists ur, sp, ct, vt, cv, gv, od, oe, e21, e30, ver.
  do 5 (split; [first [assumption|reflexivity]|]). split.
  { cbn [app]. f_equal. destruct (u_move sp), (u_remove sp); cbn [map app]; rewrite <- ?app_assoc, ?app_nil_r; reflexivity. }
  split; [exact HA|]. split.
  { intros k K1 K2 K3 K4. rewrite R1, M1, S1 by assumption. reflexivity. }
  split; [exact DOd|]. split; [exact DOe|]. split.
  { eapply fewer_trans; [|exact R2]. eapply fewer_trans; [|exact M2].
    unfold fewer_custom. rewrite S2. subst oa. cbn.
    match goal with |- context [custom ?x] => destruct (custom x) as [cu|] end; [|reflexivity]. exists cu. split; [reflexivity|apply incl_refl]. }
  split; [exact V|exact FIN].
Qed.
