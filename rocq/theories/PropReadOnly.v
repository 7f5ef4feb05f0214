(** C60: read-only data of objects that are read from files or upgraded. *)
From Verif Require Import Base PyStr PyNum NdArray Sofa Verify Upgrade Utils Io Demo
  SpecAttr SpecInit SpecValue SpecVerify SpecUpgrade SpecEquals SpecIo
  BaseFacts StrFacts AttrFacts OpFacts InitFacts ProtFacts AddDelFacts MissingFacts CoreFacts IssueFacts DictFacts DimFacts
  DemoFacts WriteFacts ReadFacts IoFacts PropVerify PropIo PropAttr PropUpgrade.
From Coq Require Import ZArith RelationClasses.
Open Scope string_scope.
Open Scope list_scope.

(** ** Reading *)

(** entries of the convention keep their declaration while a file is read *)
Record guarded (cv : convention) (o : sofa) : Prop := {
  gu_sub : forall k e, dget k cv = Some e -> dget k (conv o) = Some e;
  gu_sup : forall k e, dget k (conv o) = Some e -> e_flags e <> None -> dget k cv = Some e;
  gu_ro : forall k e, dget k cv = Some e -> is_read_only (e_flags e) = true -> in_ro k (ro o) = true;
  gu_custom : forall cu k e, custom o = Some cu -> In (k, e) cu -> e_flags e = None /\ entry_fine (k, e) }.

Lemma dset_In {A} k (x : A) d j y : In (j, y) (dset k x d) -> (j, y) = (k, x) \/ In (j, y) d.
Proof.
  induction d as [|[i z] d IH]; cbn [dset].
  - intros [Q|[]]. left. symmetry. exact Q.
  - destruct (String.eqb k i); (intros [Q|I]; [|]).
    + left. symmetry. exact Q.
    + right. right. exact I.
    + right. left. exact Q.
    + destruct (IH I) as [X|X]; [left; exact X|right; right; exact X].
Qed.
Lemma ddel_In {A} k (d : dict A) x : In x (ddel k d) -> In x d.
Proof.
  induction d as [|[i z] d IH]; cbn [ddel]; [auto|]. destruct (String.eqb k i); [right; assumption|].
  intros [Q|I]; [left; exact Q|right; apply IH; exact I].
Qed.
Lemma ddels_In {A} ks : forall (d : dict A) x, In x (fold_left (fun c k => ddel k c) ks d) -> In x d.
Proof. induction ks as [|k ks IH]; intros d x I; [exact I|]. cbn [fold_left] in I. apply IH in I. eapply ddel_In. exact I. Qed.

Lemma guarded_entered cv i o : clean_key (i_name i) -> guarded cv o -> guarded cv (entered i o).
Proof.
  intros CL [G1 G2 G3 G4]. unfold entered.
  destruct (negb (hasattr o (i_name i)) && negb (dmem (i_name i) (conv o))) eqn:NEW; [|constructor; cbn; auto].
  apply andb_true_iff in NEW. destruct NEW as [_ NEW]. apply negb_true_iff in NEW.
  assert (NC : dget (i_name i) (conv o) = None) by (unfold dmem in NEW; destruct (dget (i_name i) (conv o)); [discriminate NEW|reflexivity]).
  constructor; cbn [conv ro custom].
  - intros k e H. assert (H' := G1 k e H). rewrite dget_dset_other; [exact H'|]. intros ->. congruence.
  - intros k e H F. rewrite dget_dset in H. destruct (String.eqb_spec k (i_name i)) as [->|N]; [|apply G2; assumption].
    injection H as <-. contradiction F. reflexivity.
  - exact G3.
  - intros cu k e Q I. injection Q as <-. apply dset_In in I. destruct I as [Q|I].
    + injection Q as -> ->. split; [reflexivity|]. split; [exact CL|reflexivity].
    + destruct (custom o) as [c|]; [eapply G4; [reflexivity|exact I]|destruct I].
Qed.
Lemma guarded_enter cv its : forall st, (forall i, In i its -> clean_key (i_name i)) -> guarded cv (fst st) -> guarded cv (fst (enter its st)).
Proof.
  induction its as [|i its IH]; intros st CL G; [exact G|]. cbn [enter fold_left]. fold (enter its). apply IH.
  - intros j J. apply CL. right. exact J.
  - cbn [enter1 fst]. apply guarded_entered; [apply CL; left; reflexivity|exact G].
Qed.

Lemma init_guarded E c v vo ev o : db_ok E -> sofa_init E c false v vo = (ev, Ok o) ->
  load_convention E c v = Ok (conv o) /\ guarded (conv o) o
  /\ (exists e, dget "GLOBAL_SOFAConventions" (conv o) = Some e /\ is_mandatory (e_flags e) = true /\ is_read_only (e_flags e) = true)
  /\ (exists e, dget "GLOBAL_SOFAConventionsVersion" (conv o) = Some e /\ is_mandatory (e_flags e) = true /\ is_read_only (e_flags e) = true).
Proof.
  intros DB I. destruct (armed_init E c false v vo ev o DB I) as [w [A [_ [L [_ [_ [CU _]]]]]]].
  split; [exact L|]. destruct A as [_ _ _ A4 A5 A6 A7 A8 _]. split; [|split; assumption].
  constructor; [auto|auto|exact A6|]. intros cu k e Q. rewrite CU in Q. discriminate Q.
Qed.

Lemma read_armed E s name vo verbose ev f p : db_ok E -> db_tidy E ->
  file_at s name f -> file_wf f -> NoDup (file_names f) -> read_sofa E s name vo verbose = (ev, Ok p) ->
  exists c v cv, file_text f "SOFAConventions" = Ok c /\ file_text f "SOFAConventionsVersion" = Ok v
    /\ armed_with E p c v cv /\ tidy p.
Proof.
  intros DB DT FA WF N H. apply read_sofa_Ok in H.
  destruct H as [f' [c [v [ev0 [o [q [ev1 [cu [FA' [FC [FV [_ [SI [RC [ver [_ H6]]]]]]]]]]]]]]]].
  assert (f' = f) by (apply open_file_Ok in FA; apply open_file_Ok in FA'; congruence). subst f'.
  destruct (init_guarded E c v vo ev0 o DB SI) as [LO [G [M1 M2]]].
  assert (DO := init_dicts _ _ _ _ _ _ _ SI).
  destruct (read_content_Ok _ _ _ _ _ WF (proj1 DO) RC) as [its [FI [_ [CL [Q _]]]]].
  assert (SD : same_data f q).
  { apply (items_same_data f its q WF N FI). intro k. rewrite Q. apply left_over_dget. }
  assert (TX : forall n t, file_text f n = Ok t -> exists b, dget ("GLOBAL_" +++ n) (pub q) = Some (VStr b t)).
  { intros n t T. unfold file_text in T. destruct (dget n (nf_attrs f)) as [[b u|?|?|?]|] eqn:D; try discriminate T.
    injection T as ->. apply dget_In in D. destruct (sd_attrs _ _ SD _ _ D) as [w [W1 W2]]. cbn [attr_held] in W2. subst w. eauto. }
  assert (G2 : guarded (conv o) (fst (enter its (start o)))).
  { apply guarded_enter; [exact CL|]. destruct G. constructor; assumption. }
  assert (G3 : guarded (conv o) q).
  { rewrite Q. destruct G2 as [B1 B2 B3 B4]. constructor; cbn [left_over conv ro custom]; auto.
    intros c0 k e CQ I. destruct (custom (fst (enter its (start o)))) as [c1|]; [|discriminate CQ]. injection CQ as <-.
    apply ddels_In in I. eapply B4; [reflexivity|exact I]. }
  assert (A : armed_with E q c v (conv o)).
  { destruct G3 as [B1 B2 B3 B4]. constructor; auto.
    - apply (TX "SOFAConventions" c FC).
    - apply (TX "SOFAConventionsVersion" v FV).
    - intros c0 k e Q0 I. exact (proj1 (B4 c0 k e Q0 I)). }
  assert (T : tidy q).
  { intros c0 [k e] Q0 I. exact (proj2 (gu_custom _ _ G3 c0 k e Q0 I)). }
  exists c, v, (conv o). split; [exact FC|]. split; [exact FV|].
  destruct ver; [|subst p; auto]. destruct H6 as [ev2 [r V]].
  assert (ST := verify_settles E HRaise VRead q). rewrite V in ST. cbn [m_obj fst] in ST.
  split; [exact (proj1 (armed_settles _ _ _ _ _ _ A ST))|]. eapply settles_tidy; eassumption.
Qed.

(** assigning to a read-only entry of a protected object *)
Lemma read_only_raises k x o : is_private k = false -> k <> "list_dimensions" -> prot o = true -> in_ro k (ro o) = true ->
  exists m, set_attr k x o = (o, [], Err (Exn ETypeError m)).
Proof.
  intros HP NL P R. unfold set_attr. rewrite HP, (eqb_neq_s _ _ NL), P, R. cbn [orb andb].
  destruct (hasattr o k); cbn [negb]; eauto.
Qed.

(** ** C60 *)

(** objects read from a file: every read-only entry of the convention of the
    file can not be assigned; mandatory read-only data keep the value of the
    file and mandatory data stay whatever is done with the object *)
Theorem C60_read_object :
  forall E s name vo verbose ev f p, db_ok E -> db_tidy E ->
  file_at s name f -> file_wf f -> NoDup (file_names f) -> read_sofa E s name vo verbose = (ev, Ok p) ->
  exists c v cv, file_text f "SOFAConventions" = Ok c /\ file_text f "SOFAConventionsVersion" = Ok v
  /\ load_convention E c v = Ok cv
  /\ forall k e, dget k cv = Some e ->
     (is_read_only (e_flags e) = true -> is_private k = false -> k <> "list_dimensions" ->
        forall x, exists m, set_attr k x p = (p, [], Err (Exn ETypeError m)))
     /\ (is_mandatory (e_flags e) = true -> forall ops, Forall safe_op ops ->
        (contained p k -> contained (run E p ops) k)
        /\ (is_read_only (e_flags e) = true -> forall w, dget k (pub p) = Some w -> dget k (pub (run E p ops)) = Some w)).
Proof.
  intros E s name vo verbose ev f p DB DT FA WF N H.
  assert (PP : prot p = true) by (eapply C36_protected; left; exact H).
  destruct (read_armed _ _ _ _ _ _ _ _ DB DT FA WF N H) as [c [v [cv [FC [FV [A T]]]]]].
  exists c, v, cv. split; [exact FC|]. split; [exact FV|]. split; [apply A|].
  intros k e D. split.
  - intros R HP NL x. apply read_only_raises; [assumption..|]. eapply ar_ro; [exact A|exact D|exact R].
  - intros M ops S. assert (PR := protected_run_safe E p ops DT T PP S). split.
    + intro K. exact (C02_mandatory_stay E p c v cv ops A PR k e D M K).
    + intros R w W. exact (C01_read_only_fixed E p c v cv ops A PR k e w D M R W).
Qed.
Print Assumptions C60_read_object.

(** *** the list of read-only data never changes *)
Definition kro (o o' : sofa) : Prop := ro o' = ro o.
Global Instance kro_refl : Reflexive kro.
Proof. intro o. reflexivity. Qed.
Global Instance kro_trans : Transitive kro.
Proof. intros a b c H1 H2. unfold kro in *. congruence. Qed.
Lemma kro_same {A} (m : M A) : always same m -> always kro m.
Proof. intros H o. apply (sm_ro _ _ (H o)). Qed.
Lemma kro_set_attr k v : always kro (set_attr k v).
Proof.
  intro o. destruct (set_attr_cases k v o) as [[e H]|[[bb [_ [_ H]]]|[w [_ [_ [H _]]]]]]; rewrite H; reflexivity.
Qed.
Lemma kro_del_attr k : always kro (del_attr k).
Proof. intro o. destruct (del_attr_cases k o) as [[e H]|[_ [_ [_ H]]]]; rewrite H; reflexivity. Qed.
Lemma kro_reset E : always kro (reset_convention E).
Proof.
  intro o. destruct (reset_convention_cases E o) as [[e H]|[c [b [v [cv [_ [_ [_ [_ H]]]]]]]]]; rewrite H; [reflexivity|].
  destruct (custom o); reflexivity.
Qed.
Ltac alro := lazymatch goal with
  | |- always _ (bind _ _) => apply always_bind; [typeclasses eauto | |]
  | |- always _ (mfor _ _) => apply always_mfor; [typeclasses eauto|typeclasses eauto|]
  | |- always _ (when _ _) => apply always_when; [typeclasses eauto|]
  | |- always _ (ret _) => apply always_ret; typeclasses eauto
  | |- always _ (raise _) => apply always_raise; typeclasses eauto
  | |- always _ get => apply always_get; typeclasses eauto
  | |- always _ (emit _) => apply always_emit; typeclasses eauto
  | |- always _ (lift _) => apply always_lift; typeclasses eauto
  | |- always _ (modify _) => intro; reflexivity
  | |- always _ (set_attr _ _) => apply kro_set_attr
  | |- always _ (del_attr _) => apply kro_del_attr
  | |- always _ (move_entry _) => unfold move_entry
  | |- always _ (remove_entry _) => unfold remove_entry
  | |- always _ (add_missing _ _ _ _) => unfold add_missing
  | |- always _ (apply_upgrade _ _ _ _ _ _ _) => unfold apply_upgrade
  | |- always _ (verify _ _ _) => unfold verify, verify_gen, add_defaults
  | |- always _ (reset_convention _) => apply kro_reset
  | |- always _ (handle_issues _ _ _) => apply kro_same; apply same_handle_issues
  | |- always _ verify_dims => apply kro_same; apply same_verify_dims
  | |- always _ (set_protected _) => apply kro_same; apply same_set_protected
  | |- always _ (match ?x with _ => _ end) => destruct x
  end.
Lemma kro_upgrade E t vo : always kro (upgrade_convention E t vo).
Proof. unfold upgrade_convention. repeat (intros; cbv beta zeta; alro). Qed.

(** *** an upgrade that succeeds leaves the object protected *)
Definition ends_prot {A} (m : M A) : Prop := forall o o' ev u, m o = (o', ev, Ok u) -> prot o' = true.
Definition ok_prot {A} (m : M A) : Prop := forall o o' ev u, prot o = true -> m o = (o', ev, Ok u) -> prot o' = true.
Lemma ends_bind {A B} (m : M A) (f : A -> M B) : (forall a, ends_prot (f a)) -> ends_prot (bind m f).
Proof. intros H o o' ev u Q. apply bind_Ok in Q. destruct Q as [o1 [e1 [a [e2 [_ [Q _]]]]]]. eapply H. exact Q. Qed.
Lemma ends_then {A B} (m : M A) (f : A -> M B) : ends_prot m -> (forall a, ok_prot (f a)) -> ends_prot (bind m f).
Proof.
  intros H K o o' ev u Q. apply bind_Ok in Q. destruct Q as [o1 [e1 [a [e2 [Q1 [Q _]]]]]]. eapply K; [|exact Q]. eapply H. exact Q1.
Qed.
Lemma ok_bind {A B} (m : M A) (f : A -> M B) : ok_prot m -> (forall a, ok_prot (f a)) -> ok_prot (bind m f).
Proof.
  intros H K o o' ev u P Q. apply bind_Ok in Q. destruct Q as [o1 [e1 [a [e2 [Q1 [Q _]]]]]]. eapply K; [|exact Q]. eapply H; eassumption.
Qed.
Lemma ok_const {A} (f : sofa -> list event * res A) : ok_prot (fun o => (o, fst (f o), snd (f o))).
Proof. intros o o' ev u P Q. injection Q as <- _ _. exact P. Qed.
Lemma ok_verify E m : ok_prot (verify E HRaise m).
Proof.
  intros o o' ev u P Q. destruct (raise_ok_core _ _ _ _ _ _ Q) as [o1 [e1 [w [a [d [R [_ [_ [_ [OD _]]]]]]]]]].
  rewrite OD. reflexivity.
Qed.
Lemma apply_upgrade_prot E c v sv t id vo : ends_prot (apply_upgrade E c v sv t id vo).
Proof.
  unfold apply_upgrade. do 14 (apply ends_bind; intro). apply ends_then.
  - intros o o' ev u Q. unfold set_protected, modify in Q. injection Q as <- _. reflexivity.
  - intros _. apply ok_bind; [destruct (u_message _); apply (ok_const (fun o => (_, _)))|]. intros _.
    apply ok_bind; [apply (ok_const (fun o => (_, _)))|]. intro o.
    apply ok_bind.
    + destruct vo; [apply ok_bind; [apply (ok_const (fun o => (_, _)))|intro; apply (ok_const (fun o => (_, _)))]|apply (ok_const (fun o => (_, _)))..].
    + intros []; [apply ok_bind; [apply ok_verify|intro; apply (ok_const (fun o => (_, _)))]|apply (ok_const (fun o => (_, _)))].
Qed.
Lemma upgrade_prot E t vo : ok_prot (upgrade_convention E t vo).
Proof.
  intros o o' ev u P Q. destruct (reset_none_or E o) as [[x R]|[o1 R]].
  { unfold upgrade_convention in Q. rewrite (bind_fails _ _ _ _ _ _ R) in Q. discriminate Q. }
  destruct (upgrade_after_reset E t vo o o1 R) as [b [c [v [_ [_ [_ [P1 [_ [U1 U2]]]]]]]]].
  destruct (getattr o1 "GLOBAL_Version") as [sv|x]; [|rewrite (U1 x eq_refl) in Q; discriminate Q].
  rewrite (U2 sv eq_refl) in Q. clear U1 U2. assert (P' : prot o1 = true) by congruence.
  destruct (decide E c v t) as [| |targets|id|].
  - injection Q as <- _ _. exact P'.
  - injection Q as <- _ _. exact P'.
  - revert Q. apply ok_bind; [destruct t; apply (ok_const (fun o => (_, _)))| |exact P']. intros _.
    apply ok_bind; [apply (ok_const (fun o => (_, _)))|]. intro l.
    apply ok_bind; [apply (ok_const (fun o => (_, _)))|]. intros _. apply (ok_const (fun o => (_, _))).
  - destruct t as [t|]; [|injection Q as <- _ _; exact P'].
    revert Q. apply (ends_then _ _ (apply_upgrade_prot _ _ _ _ _ _ _)). intros _. apply (ok_const (fun o => (_, _))).
  - discriminate Q.
Qed.

(** Upgraded objects. Missing: data that are read-only in the new convention but
    were not in the old one, [C60_refuted]. *)
Theorem C60_upgraded_partial :
  forall E o c v cv t vo o' ev r, armed_with E o c v cv -> prot o = true ->
  upgrade_convention E t vo o = (o', ev, Ok r) ->
  prot o' = true
  /\ forall k e, dget k cv = Some e -> is_read_only (e_flags e) = true -> is_private k = false -> k <> "list_dimensions" ->
     forall x, exists m, set_attr k x o' = (o', [], Err (Exn ETypeError m)).
Proof.
  intros E o c v cv t vo o' ev r A P U. assert (P' := upgrade_prot E t vo o o' ev r P U). split; [exact P'|].
  intros k e D R HP NL x. apply read_only_raises; [assumption..|].
  assert (K := kro_upgrade E t vo o). rewrite U in K. unfold kro in K. cbn [m_obj fst] in K. rewrite K.
  eapply ar_ro; [exact A|exact D|exact R].
Qed.
Print Assumptions C60_upgraded_partial.

(** *** cases *)
Definition upgraded_demo : sofa := m_obj (upgrade_convention demo (Some "SimpleFreeFieldHRIR_1.0") VNo old_junk).
Definition written_demo : fs := fst (write_sofa demo "a" demo_sofa disk).
Lemma old_junk_armed : exists v cv, armed_with demo old_junk "Old" v cv.
Proof.
  destruct (sofa_init demo "Old" true "0.4" VAuto) as [ev [o|x]] eqn:I; [|vm_compute in I; discriminate I].
  assert (O : demo_old = o) by (unfold demo_old; rewrite I; reflexivity).
  destruct (armed_init demo "Old" true "0.4" VAuto ev o demo_db_ok I) as [v [A _]]. exists v, (conv o).
  unfold old_junk, put. rewrite O. apply armed_with_pub; [exact A| |]; apply dget_dset_other; discriminate.
Qed.
Example C60_case :
  (exists f, file_at written_demo "a" f /\ file_wf f /\ NoDup (file_names f))
  /\ (exists ev p, read_sofa demo written_demo "a" VAuto true = (ev, Ok p) /\ dget "GLOBAL_DataType" (pub p) = Some (VStr false "FIR")
     /\ exists m, m_res (set_attr "GLOBAL_DataType" (VStr false "TF") p) = Err (Exn ETypeError m))
  /\ prot old_junk = true
  /\ m_res (upgrade_convention demo (Some "SimpleFreeFieldHRIR_1.0") VNo old_junk) = Ok None
  /\ exists m, m_res (set_attr "GLOBAL_DataType" (VStr false "TF") upgraded_demo) = Err (Exn ETypeError m).
Proof.
  split; [exists (file_of written_demo "a.sofa"); split; [eexists; split; vm_compute; reflexivity|];
          split; [apply file_wfb_ok; vm_compute; reflexivity|apply nodupb_ok; vm_compute; reflexivity]|].
  split; [do 2 eexists; split; [vm_compute; reflexivity|]; split; [vm_compute; reflexivity|]; eexists; vm_compute; reflexivity|].
  split; [vm_compute; reflexivity|]. split; [vm_compute; reflexivity|]. eexists. vm_compute. reflexivity.
Qed.

(** in the new convention the entry is read-only, but it can be assigned *)
Theorem C60_refuted :
  exists k e, m_res (upgrade_convention demo (Some "SimpleFreeFieldHRIR_1.0") VNo old_junk) = Ok None
  /\ prot upgraded_demo = true /\ dget k (conv upgraded_demo) = Some e /\ is_read_only (e_flags e) = true
  /\ contained upgraded_demo k /\ m_res (set_attr k (VStr false "x") upgraded_demo) = Ok tt.
Proof.
  exists "GLOBAL_Conventions". eexists. split; [vm_compute; reflexivity|]. split; [vm_compute; reflexivity|].
  split; [vm_compute; reflexivity|]. split; [vm_compute; reflexivity|]. split; [apply dmem_In; vm_compute; reflexivity|].
  vm_compute. reflexivity.
Qed.
Print Assumptions C60_refuted.
