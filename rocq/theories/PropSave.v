(** C103: an upgraded object that is saved and loaded again. *)
From Verif Require Import Base PyStr PyNum NdArray Sofa Verify Upgrade Utils Io Demo
  SpecAttr SpecInit SpecValue SpecVerify SpecUpgrade SpecEquals SpecIo SpecStore SpecReach
  BaseFacts StrFacts AttrFacts OpFacts InitFacts MissingFacts CoreFacts ValidFacts VerifyFacts
  DictFacts DemoFacts UpgradeFacts IoFacts RoundFacts SameFacts TotalFacts CheckFacts RewriteFacts ReachFacts
  PropVerify PropIo PropRound PropUpgrade PropUpgradeSay PropReach.
From Coq Require Import ZArith Lia.
Open Scope string_scope.
Open Scope list_scope.
Open Scope nat_scope.

(** an element before and after: the same text, the same number as a float, or missing as before *)
Definition same_elt (x y : elt) : Prop := kept_elt x y \/ exists t, x = EStr t /\ y = EStr t.
(** a value before and after: the same elements in the same order, the same shape up to singleton dimensions *)
Definition same_value (v w : value) : Prop :=
  exists s d, value_is w s d /\ Forall2 same_elt (elements v) d /\ sh_squeeze s = sh_squeeze (shape_of v).

(** loaded from the file [name] in either way *)
Definition loads (E : env) (s : fs) (name : string) (p : sofa) : Prop :=
  (exists ev, read_sofa_as_netcdf s name = (ev, Ok p)) \/ (exists vo verbose ev, read_sofa E s name vo verbose = (ev, Ok p)).

(** What the upgrade left in the object is found in the file: data that were moved at their new
    places with the axes moved as announced, data that were kept, nothing that was not there.
    [p]: data before the upgrade, [q]: data loaded from the file *)
Record arrived (cv : convention) (sp : upgrade_spec) (p q : dict value) : Prop := {
  ar_moved : forall s m, In (s, m) (u_move sp) ->
    exists v w x, dget (python_name s) p = Some v /\ moved (mv_axis m) v w
      /\ dget (python_name (mv_target m)) q = Some x /\ same_value w x;
  ar_kept : forall k v, dget k p = Some v -> ~ In k stated_keys -> ~ In k (sources sp) ->
    ~ In k (targets_of sp) -> ~ In k (removals sp) -> exists x, dget k q = Some x /\ same_value v x;
  ar_stated : forall k, In k stated_keys ->
    exists e w x, dget k cv = Some e /\ added_default e w /\ dget k q = Some x /\ same_value w x;
  ar_new : forall k x, dget k q = Some x -> ~ In k stated_keys -> ~ In k (targets_of sp) ->
    (exists v, dget k p = Some v /\ same_value v x /\ ~ In k (sources sp) /\ ~ In k (removals sp))
    \/ exists e w, dget k cv = Some e /\ is_mandatory (e_flags e) = true /\ added_default e w /\ same_value w x }.

Lemma saved_value E name o s s' o' ev cv p : db_ok E -> dicts_ok o -> convention_of E o cv -> storable cv o ->
  write_sofa E name o s = (s', (o', ev, Ok tt)) -> same_entries cv o p ->
  forall k v, dget k (pub o) = Some v -> exists x, dget k (pub p) = Some x /\ same_value v x.
Proof.
  intros DB DO CO ST W SE k v G.
  destruct (total_verified E name o s s' o' ev cv DB DO CO W) as [a [ds [f [VD _]]]].
  destruct (vd_type _ _ _ _ _ _ VD k v G) as [e [D T]].
  assert (C : contained o k) by (apply dget_Some_In; eauto).
  destruct T as [[T [b [t ->]]]|[[T _]|[T HT]]].
  - destruct (se_attrs _ _ _ SE k) as [b' [t' [G1 G2]]]; [split; [exact C|eauto]|]. rewrite G in G1. injection G1 as <- <-.
    exists (VStr false t). split; [exact G2|]. exists [], [EStr t]. split; [split; reflexivity|].
    split; [|reflexivity]. constructor; [right; eauto|constructor].
  - assert (IV : is_variable cv o k e v) by (split; [exact D|split; [rewrite T; discriminate|exact G]]).
    destruct (se_numbers _ _ _ SE k e v IV T) as [w [sh [d [G1 [V1 [_ [F [Q _]]]]]]]].
    exists w. split; [exact G1|]. exists sh, d. split; [exact V1|]. split; [|exact Q].
    clear -F. induction F; constructor; [left; assumption|assumption].
  - assert (IV : is_variable cv o k e v) by (split; [exact D|split; [rewrite T; discriminate|exact G]]).
    destruct (se_texts _ _ _ SE k e v IV T) as [w [sh [G1 [V1 [MW Q]]]]].
    exists w. split; [exact G1|]. exists sh, (elements v). split; [exact V1|]. split; [|exact Q].
    assert (A : forall y, In y (elements v) -> exists t, y = EStr t).
    { destruct HT as [[b [t ->]]|[ar [-> K]]]; [intros y [<-|[]]; eauto|]. cbn [elements]. intros y I.
      destruct (st_sound _ _ ST k _ G) as [R|[ar' [EQ [_ [_ [K' _]]]]]]; [|injection EQ as <-; congruence].
      destruct R as [_ [_ R]]. specialize (R y I). rewrite K in R. destruct y; try discriminate R. eauto. }
    clear -A. induction (elements v) as [|y l IH]; constructor; [right; destruct (A y (or_introl eq_refl)) as [t ->]; eauto|].
    apply IH. intros z I. apply A. right. exact I.
Qed.

Lemma loads_same E name o s s' o' ev cv p : db_ok E -> dicts_ok o -> convention_of E o cv -> storable cv o -> faithful cv o ->
  write_sofa E name o s = (s', (o', ev, Ok tt)) -> loads E s' name p -> same_entries cv o p.
Proof.
  intros DB DO CO ST FA W [[e R]|[vo [verbose [e R]]]].
  - destruct (total_netcdf E name o s s' o' ev cv DB DO CO ST W FA) as [e2 [q [R2 SE]]]. rewrite R in R2. injection R2 as _ <-. exact SE.
  - exact (total_same E name o s s' o' ev cv DB DO CO ST W FA vo verbose e p R).
Qed.

(** For every object of a program: upgraded, saved and loaded.
    Full claim: without the assumptions on the upgraded data; see [C103_refuted] *)
Theorem C103_saved_partial :
  forall E s0 os o t vo o' ev r targets id, db_ok E -> defaults_ok E -> world E s0 os -> In o os ->
  offers E o targets id -> In t targets -> upgrade_convention E (Some t) vo o = (o', ev, Ok r) ->
  exists sp c v content, changes E o id sp /\ has_file E c v content
    /\ (t = c +++ "_" +++ v \/ t = c +++ "_latest")
    /\ (changes_tidy sp ->
        forall cv name s s' o2 ev2 p, convention_of E o' cv -> storable cv o' -> faithful cv o' ->
        write_sofa E name o' s = (s', (o2, ev2, Ok tt)) -> loads E s' name p ->
        arrived (sofar_keys content) sp (pub o) (pub p)).
Proof.
  intros E s0 os o t vo o' ev r targets id DB DE WO I OF IT H.
  destruct (C75_upgraded E s0 os o t vo o' ev r targets id DB DE WO I OF IT H) as [sp [c [v [content [H1 [H2 [H3 H4]]]]]]].
  exists sp, c, v, content. split; [exact H1|]. split; [exact H2|]. split; [exact H3|].
  intros CT cv name s s' o2 ev2 p CO ST FA W LD. specialize (H4 CT).
  assert (DO : dicts_ok o').
  { assert (X := proj2 (world_whole E s0 os DE WO) o I).
    assert (Y := whole_upgrade E (Some t) vo DE o X). rewrite H in Y. exact (so_dicts _ (whole_sound _ Y)). }
  assert (SE := loads_same E name o' s s' o2 ev2 cv p DB DO CO ST FA W LD).
  assert (SV := saved_value E name o' s s' o2 ev2 cv p DB DO CO ST W SE).
  destruct H4 as [U1 U2 U3 U4 U5 U6]. constructor.
  - intros a m J. destruct (U2 a m J) as [x [w [X1 [X2 X3]]]]. destruct (SV _ _ X3) as [y [Y1 Y2]]. exists x, w, y. auto.
  - intros k x G N1 N2 N3 N4. apply SV. apply U3; assumption.
  - intros k J. destruct (U1 k J) as [e [w [X1 [X2 X3]]]]. destruct (SV _ _ X3) as [y [Y1 Y2]]. exists e, w, y. auto.
  - intros k x G N1 N2. assert (C : contained o' k) by (apply (se_names _ _ _ SE); apply dget_Some_In; eauto).
    apply dget_Some_In in C. destruct C as [w C]. destruct (SV _ _ C) as [x' [Y1 Y2]]. rewrite G in Y1. injection Y1 as <-.
    destruct (U5 k w C N1 N2) as [[X1 [X2 X3]]|[e [X1 [X2 X3]]]]; [left; exists w; auto|right; exists e, w; auto].
Qed.
Print Assumptions C103_saved_partial.

(** an object of the outdated convention with a text and an attribute of the user *)
Definition old_with (note : string) : sofa :=
  step demo (step demo (match sofa_init demo "Old" false "0.4" VAuto with (_, Ok o) => o | _ => empty_sofa end)
    (OAddVar "SourceDescriptions" (VArr (Arr KU [1] [EStr "left"] false)) "string" (Some "MS")))
    (OAddAttr "GLOBAL_Note" (VStr false note)).
Definition new_with (note : string) : sofa :=
  m_obj (upgrade_convention demo (Some "SimpleFreeFieldHRIR_1.0") VAuto (old_with note)).
Definition loaded_with (note : string) : res sofa :=
  snd (read_sofa demo (fst (write_sofa demo "new" (new_with note) disk)) "new" VAuto true).

Lemma old_with_world note : world demo disk [old_with note].
Proof.
  unfold old_with. destruct (sofa_init demo "Old" false "0.4" VAuto) as [ev [o|e]] eqn:I.
  2: { exfalso. assert (X : is_ok (snd (sofa_init demo "Old" false "0.4" VAuto)) = true) by (vm_compute; reflexivity). rewrite I in X. discriminate X. }
  apply (wo_call demo disk [] _ []); [|apply in_str]. apply (wo_call demo disk [] o [] _); [|apply inputb_ok; reflexivity].
  refine (wo_create demo disk [] _ _ _ _ _ _ _ I). apply wo_start. exact disk_ok.
Qed.

Example C103_case :
  let o := old_with "by hand" in let o' := new_with "by hand" in
  world demo disk [o] /\ offers demo o ["SimpleFreeFieldHRIR_1.0"] "to_hrir" /\ changes_tidy to_hrir
  /\ m_res (upgrade_convention demo (Some "SimpleFreeFieldHRIR_1.0") VAuto o) = Ok None
  /\ convention_of demo o' cv10 /\ storable cv10 o' /\ faithful cv10 o'
  /\ m_res (snd (write_sofa demo "new" o' disk)) = Ok tt
  /\ exists p, loaded_with "by hand" = Ok p
     /\ dget "Data_Mat" (pub o) = Some (nums [1; 2; 2] [1; 2; 3; 4]%Z)
     /\ dget "Data_IR" (pub p) = Some (VArr (Arr KF [1; 2; 2] (map flt [1; 3; 2; 4]%Z) false))
     /\ dget "Data_Mat" (pub p) = None /\ dget "Junk" (pub p) = None
     /\ dget "GLOBAL_Note" (pub p) = Some (VStr false "by hand").
Proof.
  cbv zeta. split; [apply old_with_world|]. split.
  { exists false, "Old", false, "0.4", (UpgradeRule [(["0.4"], ["SimpleFreeFieldHRIR_1.0"], "to_hrir")] [("to_hrir", to_hrir)]),
      [], ["0.4"], [].
    split; [vm_compute; reflexivity|]. split; [vm_compute; reflexivity|]. split; [reflexivity|].
    split; [reflexivity|]. split; [left; reflexivity|]. intros x []. }
  split; [exact to_hrir_tidy|]. split; [vm_compute; reflexivity|].
  split; [apply in_hrir_ok; vm_compute; reflexivity|].
  split; [apply storableb_ok; [apply some_text_ok; vm_compute; reflexivity|vm_compute; reflexivity]|].
  split; [apply faithfulb_ok; vm_compute; reflexivity|]. split; [vm_compute; reflexivity|].
  eexists. split; [vm_compute; reflexivity|]. split; [vm_compute; reflexivity|]. split; [vm_compute; reflexivity|].
  split; [vm_compute; reflexivity|]. split; vm_compute; reflexivity.
Qed.

(** Texts with NULs are kept by the upgrade but not by the file *)
Theorem C103_refuted :
  let note := "A" +++ nuls 1 +++ "B" in let o := old_with note in
  world demo disk [o] /\ m_res (upgrade_convention demo (Some "SimpleFreeFieldHRIR_1.0") VAuto o) = Ok None
  /\ m_res (snd (write_sofa demo "new" (new_with note) disk)) = Ok tt
  /\ dget "GLOBAL_Note" (pub (new_with note)) = Some (VStr false note)
  /\ exists p, loaded_with note = Ok p /\ dget "GLOBAL_Note" (pub p) = Some (VStr false "AB").
Proof.
  cbv zeta. split; [apply old_with_world|]. split; [vm_compute; reflexivity|]. split; [vm_compute; reflexivity|].
  split; [vm_compute; reflexivity|]. eexists. split; vm_compute; reflexivity.
Qed.
Print Assumptions C103_refuted.
