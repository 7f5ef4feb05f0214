(** Lemmas about objects that are read from a file and written again. *)
From Verif Require Import Base BaseFacts PyStr PyNum NdArray Sofa Verify Utils StrFacts SpecAttr SpecInit SpecVerify
  SpecEquals Io SpecIo SpecStore AttrFacts OpFacts CoreFacts ValidFacts ShapeFacts InitFacts AddDelFacts MissingFacts IssueFacts
  VerifyFacts DictFacts DimFacts UpgradeFacts EqualsFacts WriteFacts ReadFacts IoFacts RoundFacts SameFacts AgainFacts TotalFacts.
From Coq Require Import Lia.
Open Scope string_scope.
Open Scope list_scope.
Open Scope nat_scope.

(** ** The specifications depend on the public data and on the custom entries *)
Section Transport.
Variables (E : env) (cv : convention) (p q : sofa).
Hypothesis PP : pub p = pub q.
Hypothesis OC : own_custom cv p = own_custom cv q.

Lemma declared_t k : declared cv p k = declared cv q k.
Proof. unfold declared. rewrite OC. reflexivity. Qed.
Lemma variables_t : variables cv p = variables cv q.
Proof. unfold variables, declared. rewrite PP, OC. reflexivity. Qed.
Lemma is_variable_t k e v : is_variable cv p k e v <-> is_variable cv q k e v.
Proof. unfold is_variable, declared. rewrite PP, OC. reflexivity. Qed.
Lemma contained_t k : contained p k <-> contained q k.
Proof. unfold contained. rewrite PP. reflexivity. Qed.
Lemma is_attribute_t k : is_attribute cv p k <-> is_attribute cv q k.
Proof. unfold is_attribute, declared, contained. rewrite PP, OC. reflexivity. Qed.
Lemma attribute_of_t j r k : attribute_of cv p j r k <-> attribute_of cv q j r k.
Proof. unfold attribute_of, is_variable, declared. rewrite PP, OC. reflexivity. Qed.
Lemma size_t x n : size cv p x n <-> size cv q x n.
Proof. unfold size, longest, string_variable, all_states, states, variables, declared. rewrite PP, OC. reflexivity. Qed.

Lemma extent_t x n : extent cv p x n <-> extent cv q x n.
Proof. unfold extent. destruct (Ascii.eqb x "S"); [tauto|apply size_t]. Qed.

Lemma storable_t : storable cv q -> storable cv p.
Proof.
  intros [H1 H2 H3 H4 H5 H6 H7]. constructor.
  - unfold regular. rewrite PP. exact H1.
  - intros r C. apply H2. apply contained_t. exact C.
  - intros k e v r IV C. apply is_variable_t in IV. apply (H3 k e v r IV). apply contained_t. exact C.
  - intros k e v IV. apply is_variable_t in IV. eauto.
  - intros k e v IV. apply is_variable_t in IV. eauto.
  - intros k e v IV. apply is_variable_t in IV. eauto.
  - intros k e v IV T. apply is_variable_t in IV. destruct (H7 k e v IV T) as [A B]. split; [exact A|].
    intro Z. apply B. apply size_t. exact Z.
Qed.
Lemma faithful_t : faithful cv q -> faithful cv p.
Proof.
  intros [H1 H2 H3 H4 H5 H6 H7]. constructor.
  - intros k C. apply H1. apply contained_t. exact C.
  - intros k AT. apply is_attribute_t in AT. destruct (H2 k AT) as [H|[j [r H]]]; [left; exact H|right; exists j, r; apply attribute_of_t; exact H].
  - intros j r k AO C. apply attribute_of_t in AO. apply contained_t in C. destruct (H3 j r k AO C) as [A [B [D F]]].
    split; [apply is_attribute_t; exact A|]. split; [exact B|]. split; [exact D|]. intros j' r' AO'. apply attribute_of_t in AO'. eauto.
  - intros r C. apply is_attribute_t. apply H4. apply contained_t. exact C.
  - intros k b t AT. apply is_attribute_t in AT. rewrite PP. eauto.
  - intros k e v t IV. apply is_variable_t in IV. eauto.
  - intros k e v x f IV. apply is_variable_t in IV. eauto.
Qed.
Lemma readable_t : readable_again E cv q -> readable_again E cv p.
Proof.
  intros [H1 H2 H3 H4 H5 H6 H7 H8]. constructor.
  - intros k e v d alt i x IV. apply is_variable_t in IV. eauto.
  - intros k e v d IV. apply is_variable_t in IV. eauto.
  - intros k e. rewrite OC. intro G. destruct (H3 k e G) as [A B]. split; [apply contained_t; exact A|exact B].
  - intros k e AT. apply is_attribute_t in AT. rewrite declared_t. eauto.
  - exact H5.
  - intros k C. apply H6. apply contained_t. exact C.
  - intros k r I C H. apply is_attribute_t. apply (H7 k r I); [apply contained_t; exact C|exact H].
  - intros k r sp x items d ref I1 I2 I3 I4 C. apply is_attribute_t. apply (H8 k r sp x items d ref I1 I2 I3 I4). apply contained_t. exact C.
Qed.
Lemma valid_t m c v : (custom q = None -> custom p = None) -> valid_for E m q c v cv -> valid_for E m p c v cv.
Proof.
  intros CN [H1 H2 H3 H4 H5 H6 H7 H8 H9 H10 H11 H12]. constructor.
  - rewrite PP. exact H1.
  - rewrite PP. exact H2.
  - exact H3.
  - intros k e. rewrite declared_t. intros D M. apply contained_t. eauto.
  - intros k w. rewrite PP, declared_t. eauto.
  - intros k e C. apply contained_t in C. unfold declared. rewrite OC. intro D. exact (H6 k e C D).
  - destruct H7 as [H7|H7]; [left; auto|right]. rewrite PP, OC. exact H7.
  - revert H8. unfold sized, all_states, string_variable, states, variables, declared, contained. rewrite PP, OC. exact (fun H => H).
  - intros k. rewrite variables_t. intro I. destruct (H9 k I) as [e [d [w [s [pre [alt [post [A1 [A2 [A3 [A4 [A5 [A6 A7]]]]]]]]]]]]].
    exists e, d, w, s, pre, alt, post. rewrite PP, declared_t. do 5 (split; [assumption|]).
    split; [intros b IB x HX; destruct (A6 b IB x HX) as [n N]; exists n; apply extent_t; exact N|].
    intros i x X. apply extent_t. exact (A7 i x X).
  - intros k r I w. rewrite PP. intro G. destruct (H10 k r I w G) as [A [B D]].
    assert (AV : forall key ref, allowed_value E q key ref -> allowed_value E p key ref) by (unfold allowed_value; rewrite PP; auto).
    split; [intros ref R; apply AV; auto|]. split; [intros g IG; apply contained_t; auto|].
    intros sp R. destruct (D sp R) as [D1 D2]. split; [exact D1|]. intros b t items kd Q1 Q2 Q3. specialize (D2 b t items kd Q1 Q2 Q3).
    unfold dep_ok in *. destruct (snd kd) as [l|[ref|]].
    + intros x ns u IX. destruct (D2 x ns u IX) as [n [N1 N2]]. exists n. split; [apply size_t; exact N1|exact N2].
    + apply AV. exact D2.
    + apply contained_t. exact D2.
  - rewrite PP. exact H11.
  - exact H12.
Qed.
End Transport.

(** ** Writing *)
Lemma warn_version_same E o p b1 b2 b3 b4 c v ev :
  dget "GLOBAL_SOFAConventions" (pub o) = Some (VStr b1 c) -> dget "GLOBAL_SOFAConventionsVersion" (pub o) = Some (VStr b2 v) ->
  dget "GLOBAL_SOFAConventions" (pub p) = Some (VStr b3 c) -> dget "GLOBAL_SOFAConventionsVersion" (pub p) = Some (VStr b4 v) ->
  warn_version E o = (o, ev, Ok tt) -> exists ev', warn_version E p = (p, ev', Ok tt).
Proof.
  intros G1 G2 G3 G4 H.
  assert (A : forall x k w, dget k (pub x) = Some w -> getattr x k = Ok w) by (intros x k w G; unfold getattr; rewrite G; reflexivity).
  unfold warn_version in *. rewrite bind_get in *. rewrite (A _ _ _ G1) in H. rewrite (A _ _ _ G3). rewrite !bind_lift in *.
  destruct (String.eqb c "invalid-value"); [eexists; reflexivity|].
  destruct (sofa_init E c false "latest" VAuto) as [e [l|x]].
  - rewrite (bind_does _ _ _ _ _ _ (mfor_emit e p)). rewrite (bind_does _ _ _ _ _ _ (mfor_emit e o)) in H.
    rewrite !bind_lift in *. destruct (getattr l "GLOBAL_SOFAConventionsVersion") as [lv|x]; [|rewrite !bind_lift_err in H; discriminate H].
    rewrite (A _ _ _ G2) in H. rewrite (A _ _ _ G4). rewrite !bind_lift in *.
    destruct lv as [b lv|x|x|x]; try (cbn in H; discriminate H).
    destruct (version_ltb v lv) as [old|x]; [|rewrite !bind_lift_err in H; discriminate H].
    rewrite !bind_lift in *. destruct old; cbn [when emit m_obj m_out m_res fst snd]; eexists; reflexivity.
  - rewrite (bind_does _ _ _ _ _ _ (mfor_emit e o)) in H. rewrite !bind_lift_err in H. discriminate H.
Qed.

Lemma write_again E name path o s ev1 r cv : db_ok E -> dicts_ok o -> (forall cv', convention_of E o cv' -> cv' = cv) -> storable cv o ->
  valid E VWrite o -> rules_tidy E -> warn_version E o = (o, ev1, Ok r) -> sofa_path name = Ok path -> fs_writable s path = true ->
  exists s' o' ev, write_sofa E name o s = (s', (o', ev, Ok tt)).
Proof.
  intros DB DO CO ST VL RT WV SP WR. assert (OK : is_ok (m_res (verify E HRaise VWrite o)) = true) by (apply verify_iff_valid; auto).
  destruct (verify E HRaise VWrite o) as [[o' e] [u|x]] eqn:V; [|discriminate OK].
  destruct (verify_verified E VWrite o o' e u DB DO V) as [cv' [a [ds VD]]].
  assert (cv' = cv) by (apply CO; apply (vd_cv _ _ _ _ _ _ VD)). subst cv'.
  destruct (write_storable E o o' cv a ds VD ST) as [f WC].
  assert (P : exists e2, prepare_write E name o = (o', e2, Ok path)).
  { unfold prepare_write. rewrite SP, bind_lift. rewrite (bind_does _ _ _ _ _ _ WV). rewrite (bind_does _ _ _ _ _ _ V). eexists. reflexivity. }
  destruct P as [e2 P]. unfold write_sofa. rewrite P, WR, WC. do 3 eexists. reflexivity.
Qed.

(** ** What is read can be written *)
Section Rewrite.
Variables (E : env) (name : string) (o : sofa) (s s' : fs) (o' : sofa) (ev : list event) (cv : convention).
Hypothesis DB : db_ok E.
Hypothesis RT : rules_tidy E.
Hypothesis DO : dicts_ok o.
Hypothesis CO : convention_of E o cv.
Hypothesis ST : storable cv o.
Hypothesis W : write_sofa E name o s = (s', (o', ev, Ok tt)).
Hypothesis FA : faithful cv o.
Hypothesis RA : readable_again E cv o.
Hypothesis NU : forall k e v, is_variable cv o k e v -> endswith "Units" k = false.

Lemma read_back vo verbose ev2 p : read_sofa E s' name vo verbose = (ev2, Ok p) ->
  exists c v, valid_for E VWrite o c v cv /\ valid_for E VWrite p c v cv
    /\ dicts_ok p /\ storable cv p /\ faithful cv p /\ readable_again E cv p /\ same_entries cv o p
    /\ (forall k, contained o k -> exists e e', declared cv o k = Some e /\ declared cv p k = Some e' /\ e_type e' = e_type e)
    /\ (forall k e v, is_variable cv p k e v -> exists e0 v0, is_variable cv o k e0 v0)
    /\ is_ok (snd (sofa_init E c false v vo)) = true.
Proof.
  intro R. destruct (total_verified E name o s s' o' ev cv DB DO CO W) as [a [ds [f [V [WC FI]]]]].
  destruct (total_valid E name o s s' o' ev cv DB RT DO CO W) as [c [v VL]].
  destruct (total_names E name o s s' o' ev cv DB DO CO W FA c v VL f WC) as [T1 T2].
  assert (SE := total_same E name o s s' o' ev cv DB DO CO ST W FA _ _ _ _ R).
  apply read_sofa_Ok in R.
  destruct R as [f' [c' [v' [ev0 [oi [q [ev1 [cu [FI' [N1 [N2 [_ [SI [RC [ver [_ R]]]]]]]]]]]]]]]].
  assert (f' = f) by (apply open_file_Ok in FI; apply open_file_Ok in FI'; congruence). subst f'.
  assert (c' = c) by congruence. assert (v' = v) by congruence. subst c' v'.
  destruct (va_file _ _ _ _ _ _ VL) as [ct [F1 F2]].
  destruct (init_version E c v ct vo ev0 oi DB F1 SI) as [NC [CU [CV _]]]. rewrite <- F2 in NC, CV.
  assert (DI := init_dicts _ _ _ _ _ _ _ SI).
  assert (WF := file_is_wf E o o' cv a ds f V ST WC).
  assert (DQ : dicts_ok q) by (apply (read_content_dicts f oi q _ _ WF DI RC)).
  destruct (read_content_Ok _ _ _ _ _ WF (proj1 DI) RC) as [its [IT [_ [_ [QE _]]]]].
  assert (VQ := write_again_q E o o' oi q c v cv a ds f its V ST FA WC RA VL NC CU CV IT DO DQ QE NU).
  assert (SQ := storable_q E o o' oi q c v cv a ds f its V ST FA WC RA VL NC CU CV IT DO DQ QE).
  assert (FQ := faithful_q E o o' oi q cv a ds f its V ST FA WC RA NC CU CV IT DQ QE).
  assert (RQ := readable_q E o o' oi q cv a ds f its V ST FA WC RA NC CU CV IT QE).
  assert (TY := same_types E o o' oi q cv a ds f its V ST FA WC RA NC CU CV IT QE).
  assert (VA := variable_q E o o' oi q cv a ds f its V ST FA WC RA NC CU CV IT QE).
  assert (X : pub p = pub q /\ own_custom cv p = own_custom cv q /\ (custom q = None -> custom p = None) /\ dicts_ok p).
  { destruct ver; [|subst p; auto]. destruct R as [e2 [r R]].
    destruct (raise_ok_core _ _ _ _ _ _ R) as [o1 [e1 [w [a' [d' [RS [_ [_ [_ [OD _]]]]]]]]]].
    destruct (reset_iff E q DB DQ) as [RI _]. destruct (RI _ RS) as [b [c2 [wv [content [V1 [V2 [V3 RT2]]]]]]].
    assert (CQ : convention_of E q cv).
    { destruct (va_name _ _ _ _ _ _ VQ) as [b' M]. destruct (va_version _ _ _ _ _ _ VQ) as [w' [M1 M2]].
      exists b', c, w', ct. rewrite M2. auto. }
    assert (HC : sofar_keys content = cv).
    { apply (convention_unique E q cv (sofar_keys content) DB CQ). exists b, c2, wv, content. auto. }
    rewrite HC in RT2. subst p. split; [exact (rt_pub _ _ _ RT2)|]. split; [exact (own_custom_reset _ _ _ _ RT2 eq_refl)|].
    split.
    - intro N. change (custom o1 = None). rewrite (rt_custom _ _ _ RT2), N. reflexivity.
    - assert (K := kdict_verify E HRaise VRead q DQ). rewrite R in K. exact K. }
  destruct X as [PP [OC [CN DP]]].
  exists c, v. split; [exact VL|]. split; [apply (valid_t E cv p q PP OC VWrite c v CN VQ)|]. split; [exact DP|].
  split; [apply (storable_t cv p q PP OC SQ)|]. split; [apply (faithful_t cv p q PP OC FQ)|]. split; [apply (readable_t E cv p q PP OC RQ)|].
  split; [exact SE|]. split.
  - intros k C. destruct (TY k C) as [e [e' [Y1 [Y2 Y3]]]]. exists e, e'. rewrite (declared_t cv p q OC). auto.
  - split; [|rewrite SI; reflexivity].
    intros k e w IV. apply (is_variable_t cv p q PP OC) in IV. destruct (VA k e w IV) as [e0 [v0 [IV0 _]]]. eauto.
Qed.

Lemma kept_trans l d d' : Forall2 kept_elt l d -> Forall2 kept_elt d d' -> Forall2 kept_elt l d'.
Proof.
  intro H. revert d'. induction H as [|x y l d K _ IH]; intros d' F; inversion F as [|? z ? ? K' F']; subst; constructor; auto.
  destruct K as [[f [N ->]]|[-> ->]]; destruct K' as [[g [N' ->]]|[X ->]]; try discriminate X.
  - left. inversion N'; subst. eauto.
  - inversion N'.
  - right. auto.
Qed.

Lemma same_entries_trans p r :
  (forall k, contained o k -> exists e e', declared cv o k = Some e /\ declared cv p k = Some e' /\ e_type e' = e_type e) ->
  same_entries cv o p -> same_entries cv p r -> same_entries cv o r.
Proof.
  intros TY S1 S2.
  assert (IV : forall k e v, is_variable cv o k e v -> exists e' w, is_variable cv p k e' w /\ e_type e' = e_type e /\ dget k (pub p) = Some w).
  { intros k e v [D [T G]]. assert (C : contained o k) by (apply dget_Some_In; eauto). destruct (TY k C) as [e0 [e' [D0 [D' TE]]]].
    assert (e0 = e) by congruence. subst e0. apply (se_names _ _ _ S1) in C. apply dget_Some_In in C. destruct C as [w GW].
    exists e', w. split; [split; [exact D'|split; [congruence|exact GW]]|auto]. }
  assert (EL : forall w s d, value_is w s d -> elements w = d /\ shape_of w = s).
  { intros w s0 d VI. split; [|exact (value_shape _ _ _ VI)].
    destruct w; cbn [value_is elements] in *; [destruct VI; congruence|destruct VI as [_ [VI _]]; congruence|destruct VI as [_ [VI _]]; congruence|destruct VI]. }
  constructor.
  - intro k. rewrite (se_names _ _ _ S2 k). apply (se_names _ _ _ S1 k).
  - intros k AT. destruct (se_attrs _ _ _ S1 k AT) as [b [t [G1 G2]]]. exists b, t. split; [exact G1|].
    assert (AP : is_attribute cv p k).
    { split; [apply (se_names _ _ _ S1); apply AT|]. destruct AT as [C [e [D T]]]. destruct (TY k C) as [e0 [e' [D0 [D' TE]]]].
      exists e'. split; [exact D'|congruence]. }
    destruct (se_attrs _ _ _ S2 k AP) as [b' [t' [G3 G4]]]. congruence.
  - intros k e v V T. destruct (IV k e v V) as [e' [w [V' [T' G]]]].
    destruct (se_numbers _ _ _ S1 k e v V T) as [w1 [s1 [fs [W1 [W2 [W3 [W4 [W5 _]]]]]]]]. assert (w1 = w) by congruence. subst w1.
    destruct (se_numbers _ _ _ S2 k e' w V' ltac:(congruence)) as [w2 [s2 [gs [X1 [X2 [X3 [X4 [X5 X6]]]]]]]].
    destruct (EL _ _ _ W2) as [EW SW]. rewrite EW in X4. rewrite SW in X5.
    exists w2, s2, gs. split; [exact X1|]. split; [exact X2|]. split; [congruence|]. split; [|split; [congruence|exact X6]].
    apply (kept_trans _ _ _ W4 X4).
  - intros k e v V T. destruct (IV k e v V) as [e' [w [V' [T' G]]]].
    destruct (se_texts _ _ _ S1 k e v V T) as [w1 [s1 [W1 [W2 [W3 W5]]]]]. assert (w1 = w) by congruence. subst w1.
    destruct (se_texts _ _ _ S2 k e' w V' ltac:(congruence)) as [w2 [s2 [X1 [X2 [X3 X5]]]]].
    destruct (EL _ _ _ W2) as [EW SW]. rewrite EW in X2. rewrite SW in X5.
    exists w2, s2. split; [exact X1|]. split; [exact X2|]. split; [exact X3|]. congruence.
Qed.

Lemma regular_same p : (forall k, contained o k -> exists e e', declared cv o k = Some e /\ declared cv p k = Some e' /\ e_type e' = e_type e) ->
  regular o -> storable cv p -> same_entries cv o p -> regular p.
Proof.
  intros TY RG SP SE k w G. destruct (st_sound _ _ SP k w G) as [R|[ar [-> [_ [M _]]]]]; [exact R|]. exfalso.
  destruct (total_verified E name o s s' o' ev cv DB DO CO W) as [a [ds [f [V _]]]].
  assert (C : contained o k) by (apply (se_names _ _ _ SE); apply dget_Some_In; eauto).
  destruct (TY k C) as [e [_ [D _]]]. destruct (string_dec (e_type e) "attribute") as [T|T].
  - assert (AT : is_attribute cv o k) by (split; [exact C|eauto]). destruct (se_attrs _ _ _ SE k AT) as [b [t [_ Q]]]. congruence.
  - apply dget_Some_In in C. destruct C as [v GV]. assert (IV : is_variable cv o k e v) by (split; [exact D|split; [exact T|exact GV]]).
    destruct (variable_type E o o' cv a ds V k e v IV) as [T2|T2].
    + destruct (se_numbers _ _ _ SE k e v IV T2) as [w' [s1 [d1 [W1 [_ [W3 _]]]]]]. rewrite G in W1. injection W1 as <-. cbn [masked] in W3.
      rewrite M in W3. assert (RV := RG k v GV). destruct v as [? ?|?|ar'|?]; try discriminate W3. destruct RV as [_ [RV _]]. cbn [masked] in W3. congruence.
    + destruct (se_texts _ _ _ SE k e v IV T2) as [w' [s1 [W1 [_ [W3 _]]]]]. rewrite G in W1. injection W1 as <-. cbn [masked] in W3. congruence.
Qed.

Lemma warned_before : exists e, warn_version E o = (o, e, Ok tt).
Proof.
  destruct (write_sofa_cases E name o s) as [[o1 [e1 [x Q]]]|[o1 [e1 [path [f [r [P _]]]]]]]; [rewrite Q in W; discriminate W|].
  unfold prepare_write in P. apply bind_Ok in P. destruct P as [o2 [e2 [q2 [e3 [P1 [P _]]]]]].
  unfold lift in P1. injection P1 as <- _ _. apply bind_Ok in P. destruct P as [o3 [e4 [[] [e5 [P2 _]]]]].
  assert (K := warn_version_keeps E o). rewrite P2 in K. cbn in K. subst o3. eauto.
Qed.
End Rewrite.
