(** Properties of upgrade_convention (C47-C50). *)
From Verif Require Import Base PyStr PyNum NdArray Sofa Verify Upgrade Demo
  SpecAttr SpecInit SpecVerify SpecUpgrade
  BaseFacts StrFacts AttrFacts OpFacts InitFacts ProtFacts AddDelFacts MissingFacts CoreFacts
  ValidFacts RuleFacts VerifyFacts IssueFacts DictFacts DimFacts DemoFacts AxisFacts UpgradeFacts PropVerify.
From Coq Require Import Lia ZArith.
Open Scope string_scope.
Open Scope list_scope.

Lemma py_str_str E b s : py_str E (VStr b s) = s.
Proof. reflexivity. Qed.

(** what happens after [_reset_convention] *)
Lemma upgrade_after_reset E target vo o o1 :
  reset_convention E o = (o1, [], Ok tt) ->
  exists b c v, dget "GLOBAL_SOFAConventions" (pub o) = Some (VStr b c)
    /\ dget "GLOBAL_SOFAConventionsVersion" (pub o) = Some v
    /\ pub o1 = pub o /\ prot o1 = prot o /\ ro o1 = ro o
    /\ (forall x, getattr o1 "GLOBAL_Version" = Err x -> upgrade_convention E target vo o = (o1, [], Err x))
    /\ (forall sv, getattr o1 "GLOBAL_Version" = Ok sv ->
        upgrade_convention E target vo o =
        match decide E c v target with
        | DNoRules => (o1, [EvPrint ("Convention " +++ c +++ " v" +++ py_str E v +++
                         " is outdated but is missing upgrade rules")], Ok None)
        | DUpToDate => (o1, [EvPrint ("Convention " +++ c +++ " v" +++ py_str E v +++ " is up to date")], Ok None)
        | DChoose targets =>
           (do_ match target with Some t => emit (EvPrint (t +++ " is invalid.")) | None => ret tt end;
            do l <- lift (rconcat target_line targets);
            do_ emit (EvPrint (c +++ " v" +++ py_str E v +++ " can be upgraded to:" +++ nl +++ l));
            ret (Some targets)) o1
        | DUnbound => (o1, [], Err (Exn EUnboundLocalError "target_id"))
        | DApply id => match target with
            | Some t => (do_ apply_upgrade E c (py_str E v) (py_str E sv) t id vo; ret None) o1
            | None => (o1, [], Ok None)
            end
        end).
Proof.
  intro R. assert (DS := reset_data_same E o). rewrite R in DS.
  change (m_obj (o1, [], Ok tt)) with o1 in DS. destruct DS as [D1 D2 D3].
  destruct (reset_convention_cases E o) as [[e H]|[c [b [v [cv [H1 [H2 _]]]]]]].
  { rewrite H in R. discriminate. }
  exists b, c, v. repeat (split; [assumption|]).
  unfold upgrade_convention.
  assert (G1 : getattr o1 "GLOBAL_SOFAConventions" = Ok (VStr b c)) by (unfold getattr; rewrite D1, H1; reflexivity).
  assert (G2 : getattr o1 "GLOBAL_SOFAConventionsVersion" = Ok v) by (unfold getattr; rewrite D1, H2; reflexivity).
  split.
  - intros x G3. rewrite (bind_silent _ _ _ _ _ R), bind_get, G1, bind_lift, G2, bind_lift, G3, bind_lift_err. reflexivity.
  - intros sv G3. rewrite (bind_silent _ _ _ _ _ R), bind_get, G1, bind_lift, G2, bind_lift, G3, bind_lift.
    cbv zeta. rewrite py_str_str. destruct (decide E c v target); try reflexivity. destruct target; reflexivity.
Qed.

Lemma outcome_of {A} (x : sofa * list event * res A) r : m_res x = r -> exists o ev, x = (o, ev, r).
Proof. destruct x as [[o ev] r']. cbn. intros ->. eauto. Qed.

(** ** C47 *)

(** Asking for upgrades or naming a target that is not offered changes no data
    and returns the offered targets, or nothing if there are none. *)
Theorem C47_harmless_partial :
  forall E target vo o o' ev r,
  upgrade_convention E target vo o = (o', ev, r) ->
  (forall t targets id, target = Some t -> offers E o targets id -> ~ In t targets) ->
  pub o' = pub o /\ prot o' = prot o /\ ro o' = ro o
  /\ forall x, r = Ok x ->
     match x with
     | Some l => exists id, offers E o l id
     | None => forall l id, ~ offers E o l id
     end.
Proof.
  intros E target vo o o' ev r H NT.
  destruct (reset_none_or E o) as [[x R]|[o1 R]].
  { unfold upgrade_convention in H. rewrite (bind_fails _ _ _ _ _ _ R) in H. inversion H; subst.
    repeat split. intros y Y. discriminate. }
  destruct (upgrade_after_reset E target vo o o1 R) as [b [c [v [G1 [G2 [P1 [P2 [P3 [U1 U2]]]]]]]]].
  destruct (getattr o1 "GLOBAL_Version") as [sv|x].
  2: { rewrite (U1 x eq_refl) in H. inversion H; subst. repeat (split; [assumption|]). intros y Y. discriminate. }
  rewrite (U2 sv eq_refl) in H. clear U1 U2.
  assert (NONE : is_deprecated E c v = false \/ dget c (upgrades E) = None -> forall l id, ~ offers E o l id).
  { intros N l id OF. destruct (offers_deprecated E o b c v l id G1 G2 OF) as [u [fr [F1 [F2 _]]]].
    destruct N as [N|N]; congruence. }
  unfold decide in H.
  destruct (is_deprecated E c v) eqn:DEP.
  2: { inversion H; subst. repeat (split; [assumption|]). intros y Y. inversion Y; subst. apply NONE. auto. }
  destruct (dget c (upgrades E)) as [u|] eqn:G3.
  2: { inversion H; subst. repeat (split; [assumption|]). intros y Y. inversion Y; subst. apply NONE. auto. }
  destruct (find _ (u_from_to u)) as [[[fr targets] id]|] eqn:F.
  2: { inversion H; subst. repeat (split; [assumption|]). intros y Y. discriminate. }
  assert (OF : offers E o targets id) by (apply (offers_find E o b c v u G1 G2 G3); eauto).
  assert (CH : match target with Some t => if smem t targets then DApply id else DChoose targets | None => DChoose targets end
               = DChoose targets).
  { destruct target as [t|]; [|reflexivity]. destruct (smem t targets) eqn:M; [|reflexivity].
    exfalso. apply smem_In in M. exact (NT t targets id eq_refl OF M). }
  rewrite CH in H. clear CH NT NONE DEP.
  assert (ST : o' = o1 /\ forall x, r = Ok x -> x = Some targets).
  { assert (E0 : exists e0, match target with Some t => emit (EvPrint (t +++ " is invalid.")) | None => ret tt end o1
        = (o1, e0, Ok tt)) by (destruct target; eexists; reflexivity).
    destruct E0 as [e0 E0]. unfold bind in H. rewrite E0 in H. unfold lift in H.
    destruct (rconcat target_line targets) as [l|x]; inversion H; subst; (split; [reflexivity|]).
    - intros y Y. inversion Y. reflexivity.
    - intros y Y. discriminate. }
  destruct ST as [-> ST]. repeat (split; [assumption|]). intros y Y. rewrite (ST y Y). eauto.
Qed.
Print Assumptions C47_harmless_partial.

(** The full statement demands an empty list for data that are up to date;
    nothing is returned instead. *)
Theorem C47_up_to_date_refuted :
  ~ (forall E o o' ev x, (forall l id, ~ offers E o l id) ->
       upgrade_convention E None VAuto o = (o', ev, Ok x) -> x = Some []).
Proof.
  intro H.
  assert (N : forall l id, ~ offers demo demo_sofa l id).
  { intros l id [b [c [b' [v [u [pre [fr [post [G1 [_ [G3 _]]]]]]]]]]].
    assert (X : dget "GLOBAL_SOFAConventions" (pub demo_sofa) = Some (VStr false "SimpleFreeFieldHRIR"))
      by (vm_compute; reflexivity).
    rewrite X in G1. clear X. inversion G1; subst. clear G1. vm_compute in G3. discriminate G3. }
  assert (U : exists o' ev, upgrade_convention demo None VAuto demo_sofa = (o', ev, Ok None)).
  { apply outcome_of. vm_compute. reflexivity. }
  destruct U as [o' [ev U]]. discriminate (H _ _ _ _ _ N U).
Qed.
Print Assumptions C47_up_to_date_refuted.

Definition ask (E : env) (t : option string) (o : sofa) : option (list string) :=
  match m_res (upgrade_convention E t VAuto o) with Ok x => x | Err _ => None end.
Example C47_case :
  ask demo None demo_old = Some ["SimpleFreeFieldHRIR_1.0"]
  /\ ask demo (Some "GeneralFIR_1.0") demo_old = Some ["SimpleFreeFieldHRIR_1.0"]
  /\ m_res (upgrade_convention demo None VAuto demo_sofa) = Ok None.
Proof. repeat split; vm_compute; reflexivity. Qed.

(** ** C48 *)

Theorem C48_upgraded :
  forall E o t vo o' ev r targets id, db_ok E -> dicts_ok o -> no_flags o ->
  (forall cu, custom o = Some cu -> ~ In "protected" (dkeys cu)) ->
  offers E o targets id -> In t targets ->
  upgrade_convention E (Some t) vo o = (o', ev, Ok r) ->
  exists sp c v content, changes E o id sp /\ has_file E c v content
    /\ (t = c +++ "_" +++ v \/ t = c +++ "_latest")
    /\ (changes_tidy sp ->
        (forall k x, In k (sources sp) -> dget k (pub o) = Some x -> plain_value x) ->
        upgraded (sofar_keys content) sp (pub o) (pub o')).
Proof.
  intros E o t vo o' ev r targets id DB DO NF NP OF IT H.
  destruct (reset_none_or E o) as [[x R]|[o1 R]].
  { unfold upgrade_convention in H. rewrite (bind_fails _ _ _ _ _ _ R) in H. discriminate. }
  destruct (upgrade_after_reset E (Some t) vo o o1 R) as [b [c [v [G1 [G2 [P1 [P2 [P3 [U1 U2]]]]]]]]].
  destruct (getattr o1 "GLOBAL_Version") as [sv|x].
  2: { rewrite (U1 x eq_refl) in H. discriminate. }
  rewrite (U2 sv eq_refl) in H. clear U1 U2.
  destruct (offers_deprecated E o b c v targets id G1 G2 OF) as [u [fr [G3 [DEP F]]]].
  unfold decide in H. rewrite DEP, G3, F in H. apply smem_In in IT. rewrite IT in H.
  apply bind_Ok in H. destruct H as [o2 [e1 [[] [e2 [H1 [H2 _]]]]]]. inversion H2; subst. clear H2.
  destruct (reset_declared E o o1 DO R) as [b0 [c0 [w [cv0 [_ [_ [_ [_ RT]]]]]]]].
  assert (DO1 : dicts_ok o1).
  { assert (X := kdict_reset E o DO). rewrite R in X. exact X. }
  assert (FC : forall cu, custom o1 = Some cu -> exists cu0, custom o = Some cu0 /\ incl cu cu0).
  { intros cu Q. rewrite (rt_custom _ _ _ RT) in Q. destruct (custom o) as [cu0|]; [|discriminate].
    cbn in Q. inversion Q; subst. exists cu0. split; [reflexivity|]. intros y Y. apply filter_In in Y. apply Y. }
  destruct (apply_upgrade_Ok E c (py_str E v) (py_str E sv) t id vo o1 o' e1 tt DB DO1) as [u' [sp [ct [vt [cv [A1 [A2 [A3 [A4 A5]]]]]]]]].
  - intros cu k e Q1 Q2. destruct (FC cu Q1) as [cu0 [Q3 Q4]]. apply dget_In in Q2. apply Q4 in Q2.
    apply (NF cu0 k e Q3). apply In_dget; [|exact Q2]. destruct DO as [_ D]. rewrite Q3 in D. exact D.
  - intros cu Q1 Q2. destruct (FC cu Q1) as [cu0 [Q3 Q4]]. apply (NP cu0 Q3).
    apply in_map_iff in Q2. destruct Q2 as [[k e] [Q5 Q6]]. apply Q4 in Q6. apply (in_map fst) in Q6. cbn in *. subst k. exact Q6.
  - exact H1.
  - rewrite G3 in A1. inversion A1; subst u'.
    destruct (load_own_file E ct vt cv DB A4) as [v' [content [L1 [L2 [L3 _]]]]].
    exists sp, ct, v', content. split; [exists b, c, u; auto|]. split; [exact L1|]. split.
    + apply (f_equal (join "_")) in A3. change "_" with (str1 "_") in A3. rewrite split_join in A3.
      destruct (String.string_dec vt "latest") as [->|N]; [right; exact A3|]. left. rewrite (L3 N). exact A3.
    + intros CT PL. rewrite <- L2. rewrite <- P1. apply A5; [exact CT|]. rewrite P1. exact PL.
Qed.
Print Assumptions C48_upgraded.

(** an object of the outdated convention with data to move and to remove *)
Definition old_junk : sofa := put "Junk" (VScal (EInt 7%Z)) demo_old.
Definition to_hrir : upgrade_spec :=
  UpgradeSpec [("Data.Mat", Move "Data.IR" (Some ([1], [2])) None)] ["Junk"] (Some "check the data").

Lemma to_hrir_tidy : changes_tidy to_hrir.
Proof.
  assert (S : sources to_hrir = ["Data_Mat"]) by reflexivity.
  assert (T : targets_of to_hrir = ["Data_IR"]) by reflexivity.
  assert (R : removals to_hrir = ["Junk"]) by reflexivity.
  split; rewrite ?S, ?T, ?R.
  - repeat constructor; intros [].
  - repeat constructor; intros [].
  - intros [|[|i]] [|[|j]] s t; cbn; intros; try congruence.
  - intros k [<-|[]] [Q|[]]. discriminate.
  - intros k K. assert (X : k <> "Data_Mat" /\ k <> "Data_IR" /\ k <> "Junk").
    { repeat (destruct K as [<-|K]; [repeat split; discriminate|]). destruct K. }
    destruct X as [X1 [X2 X3]]. repeat split; (intros [Q|[]]; congruence).
  - intros [Q|[]]. discriminate.
Qed.

Example C48_case :
  offers demo old_junk ["SimpleFreeFieldHRIR_1.0"] "to_hrir"
  /\ changes demo old_junk "to_hrir" to_hrir
  /\ changes_tidy to_hrir
  /\ let r := upgrade_convention demo (Some "SimpleFreeFieldHRIR_1.0") VAuto old_junk in
     is_ok (m_res r) = true
     /\ dget "Data_Mat" (pub old_junk) = Some (nums [1; 2; 2] [1; 2; 3; 4]%Z)
     /\ dget "Data_IR" (pub (m_obj r)) = Some (nums [1; 2; 2] [1; 3; 2; 4]%Z)
     /\ dget "Data_Mat" (pub (m_obj r)) = None /\ dget "Junk" (pub (m_obj r)) = None
     /\ dget "GLOBAL_DataType" (pub (m_obj r)) = Some (VStr false "FIR")
     /\ dget "Data_SamplingRate" (pub (m_obj r)) = Some (VScal (EInt 48000%Z)).
Proof.
  split; [|split; [|split]].
  - exists false, "Old", false, "0.4", (UpgradeRule [(["0.4"], ["SimpleFreeFieldHRIR_1.0"], "to_hrir")] [("to_hrir", to_hrir)]),
      [], ["0.4"], [].
    split; [vm_compute; reflexivity|]. split; [vm_compute; reflexivity|]. split; [reflexivity|].
    split; [reflexivity|]. split; [left; reflexivity|]. intros x [].
  - exists false, "Old", (UpgradeRule [(["0.4"], ["SimpleFreeFieldHRIR_1.0"], "to_hrir")] [("to_hrir", to_hrir)]).
    split; [vm_compute; reflexivity|]. split; reflexivity.
  - exact to_hrir_tidy.
  - cbv zeta. repeat split; vm_compute; reflexivity.
Qed.

(** ** C49 *)

(** Moving axes is possible exactly for existing, distinct and equally many
    axes. The result has the elements of the source at permuted indices. *)
Theorem C49_permuted :
  forall a src dst, wf_arr a = true ->
  ((exists b, moveaxis a src dst = Ok b) <->
   (forall i, In i src \/ In i dst -> i < a_ndim a) /\ NoDup src /\ NoDup dst
   /\ List.length src = List.length dst)
  /\ (forall b, moveaxis a src dst = Ok b ->
      exists order, axis_order (a_ndim a) src dst order /\ permuted a b order /\ a_mask b = a_mask a).
Proof.
  intros a src dst W. split; [apply moveaxis_ok|]. intros b H. exact (moveaxis_spec a src dst b W H).
Qed.
Print Assumptions C49_permuted.

Example C49_case :
  let a := Arr KI [2; 3; 1] (map EInt [1; 2; 3; 4; 5; 6]%Z) false in
  wf_arr a = true
  /\ moveaxis a [0] [2] = Ok (Arr KI [3; 1; 2] (map EInt [1; 4; 2; 5; 3; 6]%Z) false)
  /\ moveaxis a [0; 2] [1; 0] = Ok (Arr KI [1; 2; 3] (map EInt [1; 2; 3; 4; 5; 6]%Z) false)
  /\ is_ok (moveaxis a [0; 0] [1; 2]) = false.
Proof. repeat split; vm_compute; reflexivity. Qed.

(** ** C50 *)

Lemma demo_old_dicts : dicts_ok demo_old.
Proof.
  assert (X : exists ev, sofa_init demo "Old" true "0.4" VAuto = (ev, Ok demo_old))
    by (eexists; vm_compute; reflexivity).
  destruct X as [ev X]. exact (init_dicts _ _ _ _ _ _ _ X).
Qed.

(** Missing data that the rules move or remove raise in the middle of the
    upgrade. The object is left without its data and without protection. *)
Theorem C50_half_upgraded_refuted :
  ~ (forall E o t vo o' ev x, db_ok E -> dicts_ok o ->
       upgrade_convention E t vo o = (o', ev, Err x) -> pub o' = pub o /\ prot o' = prot o).
Proof.
  intro H.
  assert (X : exists o' ev x, upgrade_convention demo (Some "SimpleFreeFieldHRIR_1.0") VAuto demo_old = (o', ev, Err x)
            /\ prot o' = false).
  { assert (P : prot (m_obj (upgrade_convention demo (Some "SimpleFreeFieldHRIR_1.0") VAuto demo_old)) = false)
      by (vm_compute; reflexivity).
    assert (Q : is_ok (m_res (upgrade_convention demo (Some "SimpleFreeFieldHRIR_1.0") VAuto demo_old)) = false)
      by (vm_compute; reflexivity).
    revert P Q. generalize (upgrade_convention demo (Some "SimpleFreeFieldHRIR_1.0") VAuto demo_old).
    intros [[o' ev] [a|x]]; cbn; intros P Q; [discriminate|]. exists o', ev, x. auto. }
  destruct X as [o' [ev [x [X P]]]].
  destruct (H demo demo_old (Some "SimpleFreeFieldHRIR_1.0") VAuto o' ev x demo_db_ok demo_old_dicts X) as [_ Q].
  rewrite P in Q. assert (Y : prot demo_old = true) by (vm_compute; reflexivity). rewrite Y in Q. discriminate Q.
Qed.
Print Assumptions C50_half_upgraded_refuted.

(** Data are unchanged if it raises for a target that is not offered. For an
    offered target it does not raise (without verification) if the data to move
    and to remove are contained and the axes can be moved. Missing to the full
    statement: see above; data that fail the final verification stay upgraded. *)
Theorem C50_raises_partial :
  (forall E target vo o o' ev x,
     upgrade_convention E target vo o = (o', ev, Err x) ->
     (forall t targets id, target = Some t -> offers E o targets id -> ~ In t targets) ->
     pub o' = pub o /\ prot o' = prot o /\ ro o' = ro o)
  /\ (forall E o t targets id sp b c w content ct vt cv, db_ok E -> db_tidy E -> dicts_ok o -> tidy o ->
     dget "GLOBAL_SOFAConventions" (pub o) = Some (VStr b c) ->
     dget "GLOBAL_SOFAConventionsVersion" (pub o) = Some w -> has_file E c (py_str E w) content ->
     (exists x, dget "GLOBAL_Version" (pub o) = Some x) ->
     offers E o targets id -> In t targets -> changes E o id sp ->
     t = ct +++ "_" +++ vt -> has_char "_" vt = false -> has_file E ct vt cv ->
     (forall k, In k stated_keys -> In k (dkeys (sofar_keys cv))) ->
     changes_tidy sp -> changes_possible sp (pub o) ->
     m_res (upgrade_convention E (Some t) VNo o) = Ok None).
Proof.
  split.
  { intros E target vo o o' ev x H N. destruct (C47_harmless_partial E target vo o o' ev (Err x) H N) as [H1 [H2 [H3 _]]]. auto. }
  intros E o t targets id sp b c w content ct vt cv DB DT DO TO G1 G2 HF [sv G3] OF IT CH TE NU HT SK CT CP.
  destruct (proj2 (reset_iff E o DB DO) b c w content G1 G2 HF) as [o1 R].
  destruct (upgrade_after_reset E (Some t) VNo o o1 R) as [b0 [c0 [v0 [G1' [G2' [P1 [P2 [P3 [_ U2]]]]]]]]].
  rewrite G1 in G1'. inversion G1'; subst b0 c0. rewrite G2 in G2'. inversion G2'; subst v0. clear G1' G2'.
  assert (G4 : getattr o1 "GLOBAL_Version" = Ok sv) by (unfold getattr; rewrite P1, G3; reflexivity).
  rewrite (U2 sv G4). clear U2.
  destruct (offers_deprecated E o b c w targets id G1 G2 OF) as [u [fr [G5 [DEP F]]]].
  unfold decide. rewrite DEP, G5, F. apply smem_In in IT. rewrite IT.
  destruct (reset_tidy E o o1 DT TO R) as [TO1 _].
  assert (DO1 : dicts_ok o1) by (assert (X := kdict_reset E o DO); rewrite R in X; exact X).
  destruct CH as [b1 [c1 [u1 [C1 [C2 C3]]]]]. rewrite G1 in C1. inversion C1; subst b1 c1. rewrite G5 in C2. inversion C2; subst u1.
  assert (NC : has_char "_" ct = false).
  { destruct (file_ok_prefix _ ct (proj2 DB _ HT) (has_file_prefix _ _ _ _ HT)) as [_ [_ [_ [HC _]]]]. exact HC. }
  assert (SP : split "_" t = [ct; vt]).
  { rewrite TE. change (ct +++ "_" +++ vt) with (ct +++ String "_" vt).
    change (split "_") with (split (str1 "_")). rewrite (split_app "_" ct _ NC), split_no_char by exact NU. reflexivity. }
  assert (LO : load_convention E ct vt = Ok (sofar_keys cv)) 
    by (destruct (has_file_version E ct vt cv DB HT) as [_ [_ NL]]; exact (proj1 (load_version E ct vt DB NL) cv HT)).
  rewrite <- P1 in CP.
  destruct (apply_upgrade_ok E c (py_str E w) (py_str E sv) t id o1 u sp ct vt (sofar_keys cv) DB DT DO1 TO1 G5 C3 SP LO SK CT CP)
    as [o' [ev [[] A]]].
  unfold bind, m_res. rewrite A. reflexivity.
Qed.
Print Assumptions C50_raises_partial.

Lemma old_junk_possible : changes_possible to_hrir (pub old_junk).
Proof.
  split.
  - intros s m [Q|[]]. inversion Q; subst. split; [reflexivity|]. split; [repeat split; discriminate|].
    exists (nums [1; 2; 2] [1; 2; 3; 4]%Z). split; [vm_compute; reflexivity|]. split; [reflexivity|].
    split; [exact I|]. repeat split; repeat constructor; intros [].
  - intros k [<-|[]]. split; [reflexivity|]. split; [exists (VScal (EInt 7%Z)); vm_compute; reflexivity|].
    intros [Q|[]]. discriminate.
  - repeat constructor. intros [].
Qed.
Example C50_case :
  m_res (upgrade_convention demo (Some "SimpleFreeFieldHRIR_1.0") VNo old_junk) = Ok None
  /\ is_ok (m_res (upgrade_convention demo (Some "SimpleFreeFieldHRIR_1.0") VAuto demo_old)) = false
  /\ dget "Data_Mat" (pub demo_old) <> None
  /\ dget "Data_Mat" (pub (m_obj (upgrade_convention demo (Some "SimpleFreeFieldHRIR_1.0") VAuto demo_old))) = None.
Proof. repeat split; vm_compute; first [reflexivity|discriminate]. Qed.
