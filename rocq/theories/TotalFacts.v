(** The whole way of an object: written to a file and read from the file. *)
From Verif Require Import Base PyStr PyNum NdArray Sofa Verify Utils Io
  SpecAttr SpecInit SpecVerify SpecUpgrade SpecEquals SpecIo SpecStore
  BaseFacts StrFacts AttrFacts OpFacts InitFacts ProtFacts AddDelFacts MissingFacts CoreFacts IssueFacts ValidFacts VerifyFacts
  DictFacts ShapeFacts DimFacts UpgradeFacts EqualsFacts WriteFacts ReadFacts IoFacts RoundFacts SameFacts AgainFacts.
From Coq Require Import ZArith Lia.
Open Scope string_scope.
Open Scope list_scope.
Open Scope nat_scope.

(** ** A new object of a certain version *)
Lemma file_unique E c v f g : db_ok E -> has_file E c v f -> has_file E c v g -> f = g.
Proof.
  intros DB F G. assert (N := proj1 DB). unfold has_file in *.
  apply (In_dget _ _ _ N) in F. apply (In_dget _ _ _ N) in G. congruence.
Qed.

Lemma creation_lookup E k : In k (dkeys (creation_entries E)) \/ dget k (creation_entries E) = None.
Proof. destruct (dget k (creation_entries E)) eqn:G; [left; apply dget_Some_In; eauto|right; reflexivity]. Qed.

Lemma init_version E c v ct vo ev oi : db_ok E -> has_file E c v ct -> sofa_init E c false v vo = (ev, Ok oi) ->
  new_content E (sofar_keys ct) false (pub oi) /\ custom oi = None
  /\ (forall k, dget k (conv oi) = dget k (sofar_keys ct))
  /\ (vo = VAuto -> exists b, version_geb v "1.0" = Ok b).
Proof.
  intros DB HF SI. destruct (has_file_version _ _ _ _ DB HF) as [_ [_ NL]].
  assert (DI := init_dicts _ _ _ _ _ _ _ SI).
  assert (SI0 := SI). apply sofa_init_Ok in SI. destruct SI as [cv [LC SI]].
  destruct (load_own_file E c v cv DB LC) as [v' [ct' [HF' [CT [VV [NP [S1 S2]]]]]]]. assert (v' = v) by auto. subst v'.
  assert (ct' = ct) by (eapply file_unique; eassumption). subst ct' cv.
  destruct (SI NP) as [NC [_ [_ [CU CO]]]]. split; [exact NC|]. split; [exact CU|]. split.
  - destruct CO as [->|[o1 [C1 [P1 [U1 [R1 ->]]]]]]; [reflexivity|].
    destruct (reset_none_or E o1) as [[x R]|[o2 R]]; rewrite R in R1; [discriminate|].
    rewrite R. change (m_obj (o2, [], Ok tt)) with o2.
    assert (D1 : dicts_ok o1) by (split; [rewrite P1; apply DI|rewrite U1; exact I]).
    destruct (proj1 (reset_iff E o1 DB D1) o2 R) as [b [c' [w [ct' [G1 [G2 [G3 RT]]]]]]].
    assert (HD : forall key own, states_own key own (sofar_keys ct) -> dget key (creation_entries E) = None ->
      exists b, dget key (pub oi) = Some (VStr b own)).
    { intros key own [e [b0 [H1 [H2 [_ H3]]]]] NN. specialize (NC key). rewrite NN, H1 in NC. rewrite orb_true_r in NC.
      destruct NC as [w0 [W1 W2]]. unfold holds_default in W2. rewrite H3 in W2. subst w0. eauto. }
    destruct (HD _ _ S1 eq_refl) as [b1 B1]. destruct (HD _ _ S2 eq_refl) as [b2 B2].
    rewrite P1 in G1, G2. rewrite B1 in G1. rewrite B2 in G2. injection G1 as _ <-. injection G2 as <-. cbn [py_str] in G3.
    assert (ct' = ct) by (eapply file_unique; eassumption). subst ct'.
    intro k. rewrite (rt_conv _ _ _ RT). unfold declared, own_custom. rewrite U1. destruct (dget k (sofar_keys ct)); reflexivity.
  - intros ->. unfold sofa_init in SI0. rewrite LC in SI0.
    destruct (init_body E (sofar_keys ct) false VAuto empty_sofa) as [[o2 e2] [u|x]] eqn:IB; [|discriminate].
    unfold init_body in IB. apply bind_Ok in IB. destruct IB as [? [? [? [? [_ [IB _]]]]]].
    apply bind_Ok in IB. destruct IB as [? [? [? [? [_ [IB _]]]]]].
    apply bind_Ok in IB. destruct IB as [? [? [e [? [I1 [IB _]]]]]].
    apply bind_Ok in IB. destruct IB as [? [? [s [? [I2 _]]]]].
    destruct S2 as [e' [b0 [H1 [_ [_ H3]]]]]. unfold dgetE in I1. rewrite H1 in I1. unfold lift in I1.
    assert (e = e') by congruence. subst e'. rewrite H3 in I2. unfold lift, stable_version in I2. exists s. congruence.
Qed.

Lemma init_public E c v ct ev vo oi : db_ok E -> db_tidy E -> has_file E c v ct -> sofa_init E c false v vo = (ev, Ok oi) ->
  forall k, In k (dkeys (pub oi)) -> is_private k = false.
Proof.
  intros DB TD HF SI k I. destruct (init_version E c v ct vo ev oi DB HF SI) as [NC _].
  apply dget_Some_In in I. destruct I as [w G]. specialize (NC k).
  destruct (creation_lookup E k) as [CE|CE].
  - cbn in CE. destruct CE as [Q|[Q|[Q|[Q|[Q|[Q|[]]]]]]]; subst k; reflexivity.
  - rewrite CE in NC. destruct (dget k (sofar_keys ct)) as [e|] eqn:D; [|congruence].
    apply (TD _ _ HF (dget_In _ _ _ D)).
Qed.

(** ** The state after writing *)
Lemma write_sofa_Ok E name o s s' o' ev : write_sofa E name o s = (s', (o', ev, Ok tt)) ->
  exists f ev2 r, verify E HRaise VWrite o = (o', ev2, Ok r) /\ write_content E o' empty_file = (f, Ok tt) /\ file_at s' name f.
Proof.
  intro H. destruct (write_sofa_cases E name o s) as [[o1 [e1 [e Q]]]|[o1 [e1 [p [f [r [H1 [_ [H2 Q]]]]]]]]].
  - rewrite Q in H. discriminate H.
  - rewrite Q in H. injection H as <- <- <- ->. apply prepare_write_Ok in H1. destruct H1 as [H1 [e2 [e3 [r1 [V _]]]]].
    exists f, e3, r1. split; [exact V|]. split; [exact H2|]. exists p. split; [exact H1|apply dget_dset_same].
Qed.

(** ** Comparison *)
Lemma value_is_content w s d : value_is w s d -> masked w = false -> content_of w (sh_squeeze s) d.
Proof.
  destruct w as [b t|e|ar|l]; cbn [value_is masked].
  - intros [-> ->] _. exists (scalar_arr (EStr t)). auto.
  - intros [-> [-> NK]] _. exists (scalar_arr e). auto.
  - intros [-> [-> _]] M. apply content_array. exact M.
  - intros [].
Qed.
Lemma value_is_plain w s d : value_is w s d -> List.length d = prod s -> plain_value w.
Proof.
  destruct w as [b t|e|ar|l]; cbn [value_is plain_value]; try tauto.
  intros [-> [-> _]] L. apply Nat.eqb_eq. exact L.
Qed.

Lemma Forall2_nth {A B} (R : A -> B -> Prop) l m : Forall2 R l m -> forall i p q, nth_error l i = Some p -> nth_error m i = Some q -> R p q.
Proof.
  induction 1 as [|x y l m H _ IH]; intros [|i] p q P Q; try discriminate.
  - injection P as <-. injection Q as <-. exact H.
  - exact (IH i p q P Q).
Qed.
Lemma Forall2_repeated (R : elt -> elt -> Prop) d d' : Forall2 R d d' -> repeated R d d'.
Proof.
  intros H i p q P Q. rewrite <- (Forall2_len _ _ _ H) in Q. rewrite Nat.mod_small in Q by (apply nth_error_Some; congruence).
  eapply Forall2_nth; eassumption.
Qed.

(** read numbers are equal to the written ones *)
Lemma read_numbers v s w s' fs : content_of v s (elements v) -> s = sh_squeeze s' -> Forall2 number (elements v) fs ->
  value_is w s' (map EFlt fs) -> masked w = false -> same_numbers v w /\ same_numbers w v.
Proof.
  intros CV SQ F VI M. assert (CW := value_is_content _ _ _ VI M). rewrite <- SQ in CW.
  assert (N1 : forall p, In p (elements v) -> exists x, number p x).
  { clear - F. induction F as [|x y l m H _ IH]; [intros p []|]. intros p [<-|I]; eauto. }
  assert (N2 : forall p, In p (map EFlt fs) -> exists x, number p x).
  { intros p I. apply in_map_iff in I. destruct I as [f [<- _]]. exists f. constructor. }
  assert (CL : Forall2 close_elts (elements v) (map EFlt fs) /\ Forall2 close_elts (map EFlt fs) (elements v)).
  { clear - F. induction F as [|x y l m H _ IH]; [split; constructor|]. destruct IH as [I1 I2].
    split; constructor; auto; exists y, y; (split; [auto; constructor|]); (split; [auto; constructor|]); apply close_refl. }
  destruct CL as [C1 C2]. split.
  - exists s, (elements v), s, (map EFlt fs). do 4 (split; [assumption|]). left. split; [reflexivity|]. apply Forall2_repeated. exact C1.
  - exists s, (map EFlt fs), s, (elements v). do 4 (split; [assumption|]). left. split; [reflexivity|]. apply Forall2_repeated. exact C2.
Qed.

Lemma kept_numbers l d : (forall x, In x l -> x <> EObj) -> Forall2 kept_elt l d ->
  exists fs, d = map EFlt fs /\ Forall2 number l fs.
Proof.
  intros N H. induction H as [|x y l d K _ IH]; [exists []; split; [reflexivity|constructor]|].
  destruct IH as [fs [F1 F2]]; [intros z I; apply N; right; exact I|].
  destruct K as [[f [K ->]]|[K _]]; [|destruct (N x (or_introl eq_refl) K)].
  exists (f :: fs). subst d. split; [reflexivity|constructor; assumption].
Qed.

Lemma read_texts v s w s' : content_of v s (elements v) -> s = sh_squeeze s' -> (forall p, In p (elements v) -> exists x, text p x) ->
  value_is w s' (elements v) -> masked w = false -> same_texts v w /\ same_texts w v.
Proof.
  intros CV SQ N VI M. assert (CW := value_is_content _ _ _ VI M). rewrite <- SQ in CW.
  assert (RR : repeated same_text (elements v) (elements v)).
  { apply repeated_refl. intros p P. destruct (N p P) as [x X]. exists x, x, 0, 0. auto. }
  split; exists s, (elements v), s, (elements v); do 4 (split; [assumption|]); left; exists []; split; auto.
Qed.

Section Total.
Variables (E : env) (name : string) (o : sofa) (s s' : fs) (o' : sofa) (ev : list event) (cv : convention).
Hypothesis DB : db_ok E.
Hypothesis RT : rules_tidy E.
Hypothesis DO : dicts_ok o.
Hypothesis CO : convention_of E o cv.
Hypothesis ST : storable cv o.
Hypothesis W : write_sofa E name o s = (s', (o', ev, Ok tt)).

Lemma total_verified : exists a ds f, verified E o o' cv a ds /\ write_content E o' empty_file = (f, Ok tt) /\ file_at s' name f.
Proof.
  destruct (write_sofa_Ok _ _ _ _ _ _ _ W) as [f [e2 [r [V [WC FA]]]]].
  destruct (verify_verified E VWrite o o' e2 r DB DO V) as [cv' [a [ds VD]]].
  assert (cv' = cv) by (eapply convention_unique; [exact DB|exact CO|apply (vd_cv _ _ _ _ _ _ VD)]). subst cv'. eauto 10.
Qed.

Lemma total_valid : exists c v, valid_for E VWrite o c v cv.
Proof.
  destruct (write_sofa_Ok _ _ _ _ _ _ _ W) as [f [e2 [r [V _]]]].
  assert (VL : valid E VWrite o) by (apply verify_iff_valid; auto; rewrite V; reflexivity).
  destruct VL as [c [v [cv' VL]]]. exists c, v. replace cv with cv'; [exact VL|].
  eapply convention_unique; [exact DB|exact CO|].
  destruct (va_name _ _ _ _ _ _ VL) as [b N]. destruct (va_version _ _ _ _ _ _ VL) as [w [N1 N2]].
  destruct (va_file _ _ _ _ _ _ VL) as [ct [F1 F2]]. exists b, c, w, ct. rewrite N2. auto.
Qed.

Hypothesis FA : faithful cv o.

Lemma total_netcdf : exists ev2 p, read_sofa_as_netcdf s' name = (ev2, Ok p) /\ same_entries cv o p.
Proof.
  destruct total_verified as [a [ds [f [V [WC FI]]]]].
  assert (WF := file_is_wf E o o' cv a ds f V ST WC). assert (N := names_nodup E o o' cv a ds f V ST FA WC).
  assert (RD := file_can_be_read E o o' cv a ds f V ST FA WC).
  destruct (readable_items f WF RD) as [its IT].
  assert (RC := read_content_eq f empty_sofa its empty_nodup (fun k I => match I with end) IT
                  (readable_accessible f RD) (readable_clean f its RD IT)).
  unfold read_sofa_as_netcdf. apply open_file_Ok in FI. rewrite FI.
  rewrite (bind_does _ _ _ _ _ _ RC). unfold ret, m_obj, m_out, m_res. cbn [fst snd finished].
  eexists; eexists. split; [reflexivity|]. apply (same_data_entries E o o' cv a ds f V ST FA WC).
  apply (items_same_data f its _ WF N IT). intro k. apply left_over_dget.
Qed.

Lemma total_names c v : valid_for E VWrite o c v cv -> forall f, write_content E o' empty_file = (f, Ok tt) ->
  file_text f "SOFAConventions" = Ok c /\ file_text f "SOFAConventionsVersion" = Ok v.
Proof.
  intros VL f WC. destruct total_verified as [a [ds [f' [V [WC' FI]]]]]. assert (f' = f) by congruence. subst f'.
  destruct (written E o o' cv a ds f V WC) as [W1 _].
  assert (X : forall r b t, dget ("GLOBAL_" +++ r) (pub o) = Some (VStr b t) -> file_text f r = Ok t).
  { intros r b t G. assert (AT : is_attribute cv o ("GLOBAL_" +++ r)) by (apply (fa_global _ _ FA); apply dget_Some_In; eauto).
    destruct (attr_text E o o' cv a ds V FA _ AT) as [b' [t' [G' RN]]]. rewrite G in G'. injection G' as <- <-.
    assert (ND : NoDup (dkeys (nf_attrs f))).
    { rewrite W1, gattrs_keys. apply (NoDup_prefix_drop "GLOBAL_"). rewrite (vd_pub _ _ _ _ _ _ V). apply (vd_nodup _ _ _ _ _ _ V). }
    unfold file_text. rewrite (In_dget r (VStr false t) (nf_attrs f) ND); [reflexivity|].
    rewrite W1. unfold gattrs. rewrite (vd_pub _ _ _ _ _ _ V). apply in_map_iff. exists ("GLOBAL_" +++ r, VStr b t).
    cbn [fst snd]. rewrite RN. split; [reflexivity|]. apply filter_In. split; [apply dget_In; exact G|].
    cbn [fst]. unfold startswith. apply prefix_spec. eauto. }
  destruct (va_name _ _ _ _ _ _ VL) as [b N]. destruct (va_version _ _ _ _ _ _ VL) as [w [N1 N2]].
  split; [apply (X "SOFAConventions" b c N)|].
  assert (AT : is_attribute cv o ("GLOBAL_" +++ "SOFAConventionsVersion")) by (apply (fa_global _ _ FA); apply dget_Some_In; eauto).
  destruct (attr_text E o o' cv a ds V FA _ AT) as [b' [t' [G' _]]].
  change ("GLOBAL_" +++ "SOFAConventionsVersion") with "GLOBAL_SOFAConventionsVersion" in G'.
  rewrite N1 in G'. injection G' as ->. cbn [py_str] in N2. subst t'. apply (X "SOFAConventionsVersion" b' v N1).
Qed.

(** whatever read_sofa returns *)
Lemma total_same vo verbose ev2 p : read_sofa E s' name vo verbose = (ev2, Ok p) -> same_entries cv o p.
Proof.
  intro R. destruct total_verified as [a [ds [f [V [WC FI]]]]].
  assert (WF := file_is_wf E o o' cv a ds f V ST WC). assert (N := names_nodup E o o' cv a ds f V ST FA WC).
  apply (same_data_entries E o o' cv a ds f V ST FA WC).
  apply read_sofa_Ok in R.
  destruct R as [f' [c [v [ev0 [oi [q [ev1 [cu [FI' [_ [_ [_ [SI [RC [ver [_ R]]]]]]]]]]]]]]]].
  assert (f' = f) by (apply open_file_Ok in FI; apply open_file_Ok in FI'; congruence). subst f'.
  assert (PQ : pub p = pub q).
  { destruct ver; [|subst; auto]. destruct R as [e2 [r R]].
    assert (P1 := proj1 (verify_raise_pub (normative_keys E) E VRead q)). change (pub (m_obj (verify E HRaise VRead q)) = pub q) in P1.
    rewrite R in P1. exact P1. }
  assert (DI := init_dicts _ _ _ _ _ _ _ SI).
  destruct (read_content_Ok _ _ _ _ _ WF (proj1 DI) RC) as [its [IT [_ [_ [-> _]]]]].
  apply (items_same_data f its p WF N IT). intro k. rewrite PQ. apply left_over_dget.
Qed.

Hypothesis TD : db_tidy E.
Hypothesis RA : readable_again E cv o.

(** reading does not fail if the convention can be loaded *)
Lemma total_read vo verbose :
  (forall b c w, dget "GLOBAL_SOFAConventions" (pub o) = Some (VStr b c) ->
     dget "GLOBAL_SOFAConventionsVersion" (pub o) = Some w -> is_ok (snd (sofa_init E c false (py_str E w) vo)) = true) ->
  exists ev2 p, read_sofa E s' name vo verbose = (ev2, Ok p)
    /\ (forall k, contained o k -> exists e e', declared cv o k = Some e /\ dget k (conv p) = Some e' /\ e_type e' = e_type e)
    /\ dicts_ok p /\ valid E VRead p.
Proof.
  intro SI. destruct total_verified as [a [ds [f [V [WC FI]]]]]. destruct total_valid as [c [v VL]].
  destruct (total_names c v VL f WC) as [T1 T2].
  destruct (va_name _ _ _ _ _ _ VL) as [b N1]. destruct (va_version _ _ _ _ _ _ VL) as [w [N2 N3]].
  destruct (va_file _ _ _ _ _ _ VL) as [ct [F1 F2]]. specialize (SI b c w N1 N2). rewrite N3 in SI.
  destruct (sofa_init E c false v vo) as [ev0 [oi|e]] eqn:IN; [|discriminate SI].
  destruct (init_version E c v ct vo ev0 oi DB F1 IN) as [NC [CU [CV VG]]]. rewrite <- F2 in NC, CV.
  assert (DI := init_dicts _ _ _ _ _ _ _ IN).
  assert (WF := file_is_wf E o o' cv a ds f V ST WC). assert (RD := file_can_be_read E o o' cv a ds f V ST FA WC).
  destruct (readable_items f WF RD) as [its IT].
  assert (RC := read_content_eq f oi its (proj1 DI) (init_public E c v ct ev0 vo oi DB TD F1 IN) IT
                  (readable_accessible f RD) (readable_clean f its RD IT)).
  set (q := left_over (map i_name its) (fst (enter its (start oi)))) in *.
  assert (DQ : dicts_ok q) by (apply (read_content_dicts f oi q _ _ WF DI RC)).
  assert (VQ : valid_for E VRead q c v cv).
  { exact (valid_q E o o' oi q c v cv a ds f its V ST FA WC RA VL NC CU CV IT DO DQ eq_refl). }
  assert (VV : valid E VRead q) by (exists c, v, cv; exact VQ).
  assert (TY := same_types E o o' oi q cv a ds f its V ST FA WC RA NC CU CV IT eq_refl).
  assert (QC : forall k, contained o k -> exists e e', declared cv o k = Some e /\ dget k (conv q) = Some e' /\ e_type e' = e_type e).
  { intros k C. destruct (TY k C) as [e [e' [Y1 [Y2 Y3]]]]. exists e, e'. split; [exact Y1|]. split; [|exact Y3].
    rewrite <- Y2. exact (conv_q E o o' oi q cv a ds f its V ST FA WC RA NC CU CV IT eq_refl k C). }
  assert (VR : is_ok (m_res (verify E HRaise VRead q)) = true) by (apply verify_iff_valid; auto).
  destruct (verify E HRaise VRead q) as [[p e3] [r|x]] eqn:VQE; [|discriminate VR].
  assert (PP := proj1 (verify_raise_pub (normative_keys E) E VRead q)). change (pub (m_obj (verify E HRaise VRead q)) = pub q) in PP.
  rewrite VQE in PP. change (pub p = pub q) in PP.
  assert (PC : forall k, contained o k -> exists e e', declared cv o k = Some e /\ dget k (conv p) = Some e' /\ e_type e' = e_type e).
  { destruct (verify_verified E VRead q p e3 r DB DQ VQE) as [cv' [a' [ds' VD]]].
    assert (cv' = cv).
    { eapply convention_unique; [exact DB| |apply (vd_cv _ _ _ _ _ _ VD)].
      destruct (va_name _ _ _ _ _ _ VQ) as [b' M]. destruct (va_version _ _ _ _ _ _ VQ) as [w' [M1 M2]].
      exists b', c, w', ct. rewrite M2. auto. }
    subst cv'. intros k C. destruct (TY k C) as [e [e' [Y1 [Y2 Y3]]]]. exists e, e'. split; [exact Y1|]. split; [|exact Y3].
    rewrite (vd_conv _ _ _ _ _ _ VD). exact Y2. }
  assert (DP : dicts_ok p) by (assert (X := kdict_verify E HRaise VRead q DQ); rewrite VQE in X; exact X).
  assert (VP : valid E VRead p).
  { assert (TW := verify_raise_twice E VRead q). rewrite VQE in TW. cbn [m_obj fst] in TW.
    assert (TW' : verify E HRaise VRead p = (p, e3, Ok r)) by exact TW.
    apply verify_iff_valid; auto. rewrite TW'. reflexivity. }
  unfold read_sofa. apply open_file_Ok in FI. rewrite FI. cbn [rbind]. rewrite T1. cbn [rbind]. rewrite T2. cbn [rbind].
  rewrite (verify_cv_ok E c v ct DB F1). cbn [rbind]. rewrite IN.
  rewrite (bind_does _ _ _ _ _ _ RC). cbn [fst snd].
  set (cu := snd (snd (enter its (start oi)))).
  assert (VER : exists ver, (match vo with VAuto => version_geb v "1.0" | VYes => Ok true | VNo => Ok false end) = Ok ver).
  { destruct vo; [apply VG; reflexivity|eauto|eauto]. }
  destruct VER as [ver VER].
  assert (LAST : forall ev9, exists ev8 p', prepend ev0 (finished (m_obj ((do_ when (negb (match cu with [] => true | _ => false end) && verbose)
                   (emit (EvPrint (custom_notice cu)));
             do ver <- match vo with
                       | VAuto => lift (version_geb v "1.0")
                       | VYes => ret true
                       | VNo => ret false
                       end;
             if ver then verify_read E else ret tt) q), ev9, m_res ((do_ when (negb (match cu with [] => true | _ => false end) && verbose)
                   (emit (EvPrint (custom_notice cu)));
             do ver <- match vo with
                       | VAuto => lift (version_geb v "1.0")
                       | VYes => ret true
                       | VNo => ret false
                       end;
             if ver then verify_read E else ret tt) q))) = (ev8, Ok p') /\ (p' = p \/ p' = q)).
  { intro ev9. unfold bind at 1 3.
    assert (WH : forall b x, exists e, when b (emit x) q = (q, e, Ok tt)) by (intros [] x; eexists; reflexivity).
    match goal with |- context [when ?b (emit ?x) q] => destruct (WH b x) as [e4 ->] end.
    assert (IFV : exists e5 p', (if ver then verify_read E else ret tt) q = (p', e5, Ok tt) /\ (p' = p \/ p' = q)).
    { destruct ver; [|eexists; eexists; split; [reflexivity|auto]].
      unfold verify_read. rewrite VQE. eauto. }
    destruct IFV as [e5 [p' [IFV PQ]]].
    assert (MV : (match vo with VAuto => lift (version_geb v "1.0") | VYes => ret true | VNo => ret false end) q = (q, [], Ok ver)).
    { destruct vo; unfold lift, ret; congruence. }
    unfold bind. rewrite MV, IFV. unfold m_obj, m_res. cbn [fst snd finished]. eexists; exists p'. split; [reflexivity|exact PQ]. }
  destruct (LAST (flat_map var_events (nf_vars f) ++ m_out ((do_ when (negb (match cu with [] => true | _ => false end) && verbose)
                   (emit (EvPrint (custom_notice cu)));
             do ver <- match vo with
                       | VAuto => lift (version_geb v "1.0")
                       | VYes => ret true
                       | VNo => ret false
                       end;
             if ver then verify_read E else ret tt) q))) as [ev8 [p' [L1 L2]]].
  exists ev8, p'. split; [exact L1|]. destruct L2 as [->| ->]; auto.
Qed.

(** the object and what is read are the same for [equals] *)
Lemma total_equal p verbose x sx : regular o -> same_entries cv o p -> dicts_ok p ->
  (forall k, contained o k -> exists e e', declared cv o k = Some e /\ dget k (conv p) = Some e' /\ e_type e' = e_type e) ->
  option_of x sx -> snd (equals o' p verbose sx) = Ok true /\ snd (equals p o' verbose sx) = Ok true.
Proof.
  intros RG SE DP TY OX. destruct total_verified as [a [ds [f [V [WC FI]]]]].
  assert (PO := vd_pub _ _ _ _ _ _ V).
  assert (DO' : dicts_ok o').
  { destruct (write_sofa_Ok _ _ _ _ _ _ _ W) as [f0 [e2 [r [VV _]]]].
    assert (X := kdict_verify E HRaise VWrite o DO). rewrite VV in X. exact X. }
  assert (TO : forall k t, contained o k -> (typed o' k t <-> exists e, declared cv o k = Some e /\ e_type e = t)).
  { intros k t C. unfold typed. rewrite (vd_conv _ _ _ _ _ _ V). tauto. }
  assert (TP : forall k t, contained o k -> (typed o' k t <-> typed p k t)).
  { intros k t C. rewrite (TO k t C). destruct (TY k C) as [e [e' [T1 [T2 T3]]]]. unfold typed. split.
    - intros [e0 [D0 T0]]. exists e'. split; [exact T2|congruence].
    - intros [e0 [D0 T0]]. exists e. split; [exact T1|congruence]. }
  assert (KIND : forall k v, dget k (pub o) = Some v -> is_attribute cv o k \/ exists e, is_variable cv o k e v /\ has_type (e_type e) v).
  { intros k v G. destruct (vd_type _ _ _ _ _ _ V k v G) as [e [D HT]].
    destruct (string_dec (e_type e) "attribute") as [A|N].
    - left. split; [apply dget_Some_In; eauto|eauto].
    - right. exists e. split; [split; [exact D|split; [exact N|exact G]]|exact HT]. }
  assert (VALS : forall k v w, dget k (pub o) = Some v -> dget k (pub p) = Some w ->
    plain_value w /\ exists t, typed o' k t /\ same_values t v w /\ same_values t w v).
  { intros k v w G H. assert (C : contained o k) by (apply dget_Some_In; eauto). destruct (KIND k v G) as [AT|[e [IV HT]]].
    - destruct (se_attrs _ _ _ SE k AT) as [b [t [G' H']]]. rewrite G in G'. injection G' as ->. rewrite H in H'. injection H' as ->.
      split; [exact I|]. exists "attribute". split; [apply TO; [exact C|exact (proj2 AT)]|]. split; eapply sv_attr; reflexivity.
    - assert (L := var_elements E o o' cv a ds V ST k e v IV).
      assert (TE : typed o' k (e_type e)) by (apply TO; [exact C|exists e; split; [apply IV|reflexivity]]).
      assert (CV : content_of v (sh_squeeze (shape_of v)) (elements v)).
      { assert (RV := RG k v G). destruct v as [b t|z|ar|l]; cbn [elements shape_of].
        - exists (scalar_arr (EStr t)). auto.
        - exists (scalar_arr z). auto.
        - apply content_array. apply RV.
        - destruct RV. }
      destruct (variable_type E o o' cv a ds V k e v IV) as [T|T].
      + destruct (se_numbers _ _ _ SE k e v IV T) as [w' [s1 [d1 [H' [VI [M [FK [SQ _]]]]]]]]. rewrite H in H'. injection H' as <-.
        rewrite T in HT. assert (NM : masked v = false).
        { destruct v as [? ?|?|ar|?]; try reflexivity. apply (RG k _ G). }
        assert (NO : forall z, In z (elements v) -> z <> EObj).
        { intros z IZ ->. assert (Q := proj1 (sound_missing v HT (st_sound _ _ ST k v G)) IZ). congruence. }
        destruct (kept_numbers _ _ NO FK) as [fs [-> FN]]. rewrite NM in M.
        destruct (read_numbers v _ w s1 fs CV (eq_sym SQ) FN VI M) as [N1 N2]. split.
        * apply (value_is_plain _ _ _ VI). rewrite map_length, <- (Forall2_len _ _ _ FN), L.
          rewrite <- (prod_squeeze s1), SQ, prod_squeeze. reflexivity.
        * exists (e_type e). split; [exact TE|]. split; apply sv_double; assumption.
      + destruct (se_texts _ _ _ SE k e v IV T) as [w' [s1 [H' [VI [M SQ]]]]]. rewrite H in H'. injection H' as <-.
        assert (TX : forall q, In q (elements v) -> exists y, text q y).
        { destruct (st_texts _ _ ST k e v IV T) as [AV _]. rewrite T in HT. unfold has_type in HT.
          destruct HT as [[X _]|[[X _]|[_ [[b [t ->]]|[ar [-> K]]]]]]; try discriminate X.
          - intros q [<-|[]]. exists t. constructor. exact AV.
          - intros q I. assert (RV := RG k _ G). destruct RV as [_ [_ RV]]. specialize (RV q I). rewrite K in RV.
            destruct q; try discriminate RV. eexists. constructor. apply AV. exact I. }
        destruct (read_texts v _ w s1 CV (eq_sym SQ) TX VI M) as [N1 N2]. split.
        * apply (value_is_plain _ _ _ VI). rewrite L. rewrite <- (prod_squeeze s1), SQ, prod_squeeze. reflexivity.
        * exists (e_type e). split; [exact TE|]. split; apply sv_string; assumption. }
  assert (PL : plain o').
  { intros k v G. rewrite PO in G. apply regular_plain. apply (RG k v G). }
  assert (PP : plain p).
  { intros k w H. assert (C : contained o k) by (apply (se_names _ _ _ SE); apply dget_Some_In; eauto).
    apply dget_Some_In in C. destruct C as [v G]. apply (VALS k v w G H). }
  assert (CN : forall k, contained o' k <-> contained o k) by (intro k; unfold contained; rewrite PO; reflexivity).
  assert (CM : forall k, compared x o' k <-> compared x p k).
  { intro k. unfold compared. rewrite CN, (se_names _ _ _ SE k).
    split; intros [C [N X]]; (split; [exact C|]); (split; [exact N|]); intro X'; apply X; destruct x; cbn in *; auto; apply (TP k _ C); exact X'. }
  assert (AT : x = ExAttr -> all_typed o' /\ all_typed p).
  { intros _. split; intros k C.
    - apply CN in C. destruct (TY k C) as [e [e' [T1 _]]]. exists (e_type e). apply TO; eauto.
    - apply (se_names _ _ _ SE) in C. destruct (TY k C) as [e [e' [_ [T2 _]]]]. exists (e_type e'). exists e'. auto. }
  assert (BOTH : forall k, contained o k -> exists t v w, typed o' k t /\ typed p k t /\ dget k (pub o') = Some v /\ dget k (pub p) = Some w
     /\ same_values t v w /\ same_values t w v).
  { intros k C. assert (C1 := C). apply (se_names _ _ _ SE) in C1. apply dget_Some_In in C1. destruct C1 as [w H].
    assert (C2 := C). apply dget_Some_In in C2. destruct C2 as [v G]. destruct (VALS k v w G H) as [_ [t [T1 [S1 S2]]]].
    exists t, v, w. split; [exact T1|]. split; [apply TP; assumption|]. rewrite PO. auto. }
  split.
  - apply (equals_true_iff o' p verbose x sx OX DO' DP PL PP AT). constructor; [exact CM|].
    intros k [C _]. apply CN in C. destruct (BOTH k C) as [t [v [w [B1 [B2 [B3 [B4 [B5 B6]]]]]]]]. exists t, v, w. auto 10.
  - apply (equals_true_iff p o' verbose x sx OX DP DO' PP PL (fun e => conj (proj2 (AT e)) (proj1 (AT e)))).
    constructor; [intro k; symmetry; apply CM|].
    intros k [C _]. apply (se_names _ _ _ SE) in C. destruct (BOTH k C) as [t [v [w [B1 [B2 [B3 [B4 [B5 B6]]]]]]]]. exists t, w, v. auto 10.
Qed.
End Total.
