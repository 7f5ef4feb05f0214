(** C104: objects that are built step by step. *)
From Verif Require Import Base PyStr PyNum NdArray Sofa Verify Script SpecAttr SpecInit SpecValue SpecVerify
  BaseFacts StrFacts AttrFacts OpFacts InitFacts DictFacts AddDelFacts CoreFacts AgainFacts IssueFacts DimFacts ReportFacts TwiceFacts CsvRows PropAttr PropTwice Demo DemoFacts.
From Coq Require Import ZArith Lia.
Open Scope string_scope.
Open Scope list_scope.

(** ** Specification *)
(** the call as an operation of a program *)
Definition op_of (a : addition) : op :=
  match ad_dims a with
  | None => if String.eqb (ad_type a) "attribute" then OAddAttr (ad_name a) (ad_value a)
            else OAddVar (ad_name a) (ad_value a) (ad_type a) None
  | Some d => OAddVar (ad_name a) (ad_value a) (ad_type a) (Some d)
  end.
(** names outside the private ones, values that can be stored, no attributes of variables whose name
    holds an underscore (see C07) *)
Definition usual (a : addition) : Prop :=
  is_private (ad_name a) = false /\ is_ok (normalize (ad_value a)) = true /\ ~ data_attribute (ad_name a).
(** an entry that may be added to an object that has the data [has] if the entries [known] are known *)
Definition allowed (has known : list string) (a : addition) : Prop :=
  ~ In (ad_name a) has /\ ~ In (ad_name a) class_attrs
  /\ ((In (ad_type a) ["double"; "string"] /\ has_char "_" (ad_name a) = false /\ ad_dims a <> None)
      \/ (ad_type a = "attribute" /\ exists var x, ad_name a = var +++ "_" +++ x /\ has_char "_" x = false
            /\ (var = "GLOBAL" \/ (In var known /\ has_char "_" var = false)))).

(** ** Lemmas *)
Lemma add_one_entry a o : add_one a o = add_entry (ad_name a) (ad_value a) (ad_type a) (ad_dims a) o.
Proof.
  unfold add_one. destruct (String.eqb_spec (ad_type a) "attribute") as [Q|_]; [|reflexivity].
  destruct (ad_dims a); [reflexivity|]. rewrite Q. reflexivity.
Qed.
Lemma op_of_entry E a o : run_op E (op_of a) o = add_entry (ad_name a) (ad_value a) (ad_type a) (ad_dims a) o.
Proof.
  unfold op_of. destruct (ad_dims a); [reflexivity|].
  destruct (String.eqb_spec (ad_type a) "attribute") as [->|_]; reflexivity.
Qed.

Record grown (l : list addition) (o o' : sofa) : Prop := {
  gr_pub : exists ws, Forall2 (fun a w => normalize (ad_value a) = Ok w) l ws /\ pub o' = pub o ++ combine (map ad_name l) ws;
  gr_ro : ro o' = ro o;
  gr_prot : prot o = true -> prot o' = true;
  gr_new : forall a, In a l -> dmem (ad_name a) (conv o) = false -> exists e, dget (ad_name a) (customs o') = Some e
             /\ e_type e = ad_type a /\ e_dims e = option_map spelled (ad_dims a) /\ e_flags e = None;
  gr_old : forall k, ~ In k (map ad_name l) -> dget k (customs o') = dget k (customs o);
  gr_known : forall k, In k (dkeys (conv o)) -> dget k (customs o') = dget k (customs o);
  gr_free : forall a, In a l -> hasattr o (ad_name a) = false;
  gr_conv : forall k, In k (dkeys (conv o')) <-> In k (dkeys (conv o)) \/ In k (map ad_name l) }.

Lemma hasattr_pub o o' l k : pub o' = pub o ++ l -> hasattr o' k = false -> hasattr o k = false.
Proof.
  unfold hasattr. intros P H. apply orb_false_iff in H. destruct H as [H1 H2]. rewrite H2, orb_false_r. apply dmem_false. apply dmem_false in H1.
  intro I. apply H1. rewrite P. unfold dkeys. rewrite map_app, in_app_iff. left. exact I.
Qed.

Lemma adds_grow l : forall o o' ev, Forall (fun a => is_private (ad_name a) = false) l -> mfor l add_one o = (o', ev, Ok tt) -> grown l o o'.
Proof.
  induction l as [|a l IH]; intros o o' ev F H.
  - cbn in H. injection H as <- <-. constructor; auto.
    + exists []. split; [constructor|]. rewrite app_nil_r. reflexivity.
    + intros a [].
    + intros a [].
    + intro k. cbn. tauto.
  - inversion F as [|? ? P F']; subst. cbn [mfor] in H. apply bind_Ok in H. destruct H as [o1 [e1 [[] [e2 [H1 [H2 _]]]]]].
    rewrite add_one_entry in H1. destruct (add_entry_ok _ _ _ _ _ _ _ _ H1 P) as [A1 [A2 [A3 [w [A4 [A5 A6]]]]]].
    destruct (IH _ _ _ F' H2) as [[ws [W1 W2]] G2 G3 G4 G5 GK G6 G7].
    assert (C1 : forall k, In k (dkeys (conv o1)) <-> In k (dkeys (conv o)) \/ k = ad_name a).
    { intro k. destruct (dmem (ad_name a) (conv o)) eqn:DM.
      - destruct A6 as [-> _]. apply dmem_In in DM. split; [auto|intros [X| ->]; assumption].
      - destruct A6 as [e [-> _]]. unfold dkeys. rewrite map_app, in_app_iff. cbn. split; [intros [X|[<-|[]]]; auto|intros [X| ->]; auto]. }
    assert (C2 : forall k, k <> ad_name a -> dget k (customs o1) = dget k (customs o)).
    { intros k N. unfold customs. destruct (dmem (ad_name a) (conv o)); [destruct A6 as [_ ->]; reflexivity|].
      destruct A6 as [e [_ [-> _]]]. rewrite dget_dset_other by exact N. destruct (custom o); reflexivity. }
    assert (HA : ~ In (ad_name a) (map ad_name l)).
    { intro I. apply in_map_iff in I. destruct I as [b [Q I]]. specialize (G6 b I). rewrite Q in G6. unfold hasattr in G6.
      apply orb_false_iff in G6. destruct G6 as [G6 _]. apply dmem_false in G6. apply G6. rewrite A5. unfold dkeys. rewrite map_app, in_app_iff.
      right. left. reflexivity. }
    constructor.
    + exists (w :: ws). split; [constructor; [exact A4|exact W1]|]. cbn [map combine]. rewrite W2, A5, <- app_assoc. reflexivity.
    + rewrite G2. exact A3.
    + intros _. apply G3. exact A2.
    + intros b [<-|I] D.
      * rewrite G5 by exact HA. rewrite D in A6. destruct A6 as [e [_ [B1 [B2 [B3 B4]]]]]. exists e. unfold customs. rewrite B1.
        rewrite dget_dset_same. split; [reflexivity|]. split; [exact B2|]. split; [|exact B4]. rewrite B3. destruct (ad_dims a); cbn; [f_equal; apply spelled_spec|reflexivity].
      * apply (G4 b I). apply dmem_false. apply dmem_false in D. intro X. apply C1 in X. destruct X as [X|X]; [exact (D X)|].
        apply HA. rewrite <- X. apply in_map. exact I.
    + intros k N. cbn [map] in N. rewrite G5 by (intro X; apply N; right; exact X). apply C2. intros ->. apply N. left. reflexivity.
    + intros k I. rewrite GK by (apply C1; left; exact I). destruct (string_dec k (ad_name a)) as [->|N]; [|apply C2; exact N].
      apply dmem_In in I. rewrite I in A6. unfold customs. destruct A6 as [_ ->]. reflexivity.
    + intros b [<-|I]; [exact A1|]. apply (hasattr_pub o o1 [(ad_name a, w)]); [exact A5|apply G6; exact I].
    + intro k. rewrite G7, C1. cbn [map In]. split; [intros [[X|X]|X]; auto|intros [X|[X|X]]; auto].
Qed.

Lemma mfor_app {A} (l1 l2 : list A) f o o' ev : mfor (l1 ++ l2) f o = (o', ev, Ok tt) ->
  exists o1 e1 e2, mfor l1 f o = (o1, e1, Ok tt) /\ mfor l2 f o1 = (o', e2, Ok tt).
Proof.
  revert o ev. induction l1 as [|x l1 IH]; intros o ev H.
  - exists o, [], ev. split; [reflexivity|exact H].
  - cbn [app mfor] in H. apply bind_Ok in H. destruct H as [o1 [e1 [[] [e2 [H1 [H2 _]]]]]]. destruct (IH _ _ H2) as [o2 [x1 [x2 [K1 K2]]]].
    exists o2, (e1 ++ x1), x2. split; [|exact K2]. cbn [mfor]. apply bind_Ok. exists o1, e1, tt, x1. auto.
Qed.
Lemma mfor_run E l : forall o o' ev, mfor l add_one o = (o', ev, Ok tt) -> o' = run E o (map op_of l).
Proof.
  induction l as [|a l IH]; intros o o' ev H; [cbn in H; injection H as <- _; reflexivity|].
  cbn [mfor] in H. apply bind_Ok in H. destruct H as [o1 [e1 [[] [e2 [H1 [H2 _]]]]]]. unfold run. cbn [map fold_left]. fold (run E (step E o (op_of a)) (map op_of l)).
  unfold step. rewrite op_of_entry, <- add_one_entry, H1. exact (IH _ _ _ H2).
Qed.

(** the documented condition of C07 in terms of the names *)
Lemma documented_allowed l o o1 a : grown l o o1 -> ~ data_attribute (ad_name a) ->
  (documented o1 (ad_name a) (ad_type a) (ad_dims a)
   <-> allowed (dkeys (pub o) ++ map ad_name l) (dkeys (conv o) ++ map ad_name l) a).
Proof.
  intros [[ws [W1 W2]] G2 G3 G4 G5 GK G6 G7] ND.
  assert (PK : dkeys (pub o1) = dkeys (pub o) ++ map ad_name l).
  { rewrite W2. unfold dkeys. rewrite map_app. f_equal. clear - W1. revert ws W1. induction l as [|x l IH]; intros ws F; [reflexivity|].
    inversion F; subst. cbn [map combine fst]. f_equal. apply IH. assumption. }
  unfold documented, allowed. rewrite <- PK.
  assert (HH : hasattr o1 (ad_name a) = false <-> ~ In (ad_name a) (dkeys (pub o1)) /\ ~ In (ad_name a) class_attrs).
  { unfold hasattr. rewrite orb_false_iff, dmem_false.
    assert (SM : smem (ad_name a) class_attrs = false <-> ~ In (ad_name a) class_attrs).
    { rewrite <- smem_In. destruct (smem (ad_name a) class_attrs); split; congruence. }
    rewrite SM. reflexivity. }
  rewrite HH. split.
  - intros [[H1 H2] H3]. split; [exact H1|]. split; [exact H2|]. destruct H3 as [H3|[T [var [x [Q [X V]]]]]]; [left; exact H3|]. right. split; [exact T|].
    exists var, x. split; [exact Q|]. split; [exact X|]. destruct V as [V|[V1 [V2|[y [V2 V3]]]]]; [left; exact V| |].
    + right. split; [|exact V2]. apply in_app_iff. apply G7. exact V1.
    + exfalso. apply ND. exists y, x. rewrite Q, V2. split; [rewrite !sapp_assoc; reflexivity|auto].
  - intros [H1 [H2 H3]]. split; [auto|]. destruct H3 as [H3|[T [var [x [Q [X V]]]]]]; [left; exact H3|]. right. split; [exact T|].
    exists var, x. split; [exact Q|]. split; [exact X|]. destruct V as [V|[V1 V2]]; [left; exact V|]. right. split; [|left; exact V2].
    apply G7. apply in_app_iff. exact V1.
Qed.

Lemma adds_succeed l : forall before o0 o e0, Forall usual (before ++ l) -> mfor before add_one o0 = (o, e0, Ok tt) ->
  (forall pre a post, l = pre ++ a :: post ->
     allowed (dkeys (pub o0) ++ map ad_name (before ++ pre)) (dkeys (conv o0) ++ map ad_name (before ++ pre)) a) ->
  exists o' ev, mfor l add_one o = (o', ev, Ok tt).
Proof.
  induction l as [|a l IH]; intros before o0 o e0 F B H; [exists o, []; reflexivity|].
  assert (FB : Forall usual before) by (apply Forall_app in F; apply F).
  assert (G : grown before o0 o).
  { apply (adds_grow before o0 o e0); [|exact B]. eapply Forall_impl; [|exact FB]. intros x U. apply U. }
  assert (UA : usual a) by (apply Forall_app in F; destruct F as [_ F]; inversion F; assumption).
  destruct UA as [U1 [U2 U3]].
  assert (D : documented o (ad_name a) (ad_type a) (ad_dims a)).
  { apply (documented_allowed before o0 o a G U3). specialize (H [] a l eq_refl). rewrite app_nil_r in H. exact H. }
  apply (add_entry_accepts _ _ _ _ o U1 U2 U3) in D.
  destruct (add_entry (ad_name a) (ad_value a) (ad_type a) (ad_dims a) o) as [[o1 e1] r] eqn:A. cbn [m_res snd] in D. subst r.
  assert (B2 : exists e2, mfor (before ++ [a]) add_one o0 = (o1, e2, Ok tt)).
  { clear - B A. revert o0 e0 B. induction before as [|x l IH]; intros o0 e0 B.
    - cbn in B. injection B as <- _. exists (e1 ++ []). cbn [app mfor]. apply bind_Ok. exists o1, e1, tt, []. rewrite add_one_entry. auto.
    - cbn [mfor] in B. apply bind_Ok in B. destruct B as [q [f1 [[] [f2 [B1 [B2 _]]]]]]. destruct (IH q f2 B2) as [e3 K].
      exists (f1 ++ e3). cbn [app mfor]. apply bind_Ok. exists q, f1, tt, e3. auto. }
  destruct B2 as [e2 B2].
  destruct (IH (before ++ [a]) o0 o1 e2) as [o' [ev K]].
  - rewrite <- app_assoc. exact F.
  - exact B2.
  - intros pre b post Q. specialize (H (a :: pre) b post). rewrite <- app_assoc. cbn [app] in *. apply H. rewrite Q. reflexivity.
  - exists o', (e1 ++ ev). cbn [mfor]. apply bind_Ok. exists o1, e1, tt, ev. rewrite add_one_entry. auto.
Qed.

Lemma script_Ok E c l o ev : script E c l = (ev, Ok o) <->
  exists ev0 o0 o1 e1 e2 r, sofa_init E c false "latest" VAuto = (ev0, Ok o0) /\ mfor l add_one o0 = (o1, e1, Ok tt)
    /\ verify E HRaise VWrite o1 = (o, e2, Ok r) /\ ev = ev0 ++ e1 ++ e2.
Proof.
  unfold script. destruct (sofa_init E c false "latest" VAuto) as [ev0 [o0|x]]; [|split; [discriminate|intros [? [? [? [? [? [? [H _]]]]]]]; discriminate H]].
  destruct ((do_ mfor l add_one; verify E HRaise VWrite) o0) as [[o' ev'] [r|x]] eqn:B; split.
  - intro H. injection H as <- <-. apply bind_Ok in B. destruct B as [o1 [e1 [[] [e2 [B1 [B2 ->]]]]]]. exists ev0, o0, o1, e1, e2, r. auto.
  - intros [ev1 [p [o1 [e1 [e2 [s [H1 [H2 [H3 ->]]]]]]]]]. injection H1 as <- <-.
    assert (K : (do_ mfor l add_one; verify E HRaise VWrite) o0 = (o, e1 ++ e2, Ok s)) by (apply bind_Ok; exists o1, e1, tt, e2; auto).
    rewrite K in B. injection B as <- <- _. reflexivity.
  - discriminate.
  - intros [ev1 [p [o1 [e1 [e2 [s [H1 [H2 [H3 ->]]]]]]]]]. injection H1 as <- <-.
    assert (K : (do_ mfor l add_one; verify E HRaise VWrite) o0 = (o, e1 ++ e2, Ok s)) by (apply bind_Ok; exists o1, e1, tt, e2; auto).
    rewrite K in B. discriminate B.
Qed.

(** ** C104 *)
(** the result: the data of the new object, then the added ones in order; protected; accepted by
    verify; additions that the convention does not know are custom data as stated *)
Theorem C104_result : forall E c l ev o, db_ok E -> Forall (fun a => is_private (ad_name a) = false) l ->
  script E c l = (ev, Ok o) ->
  exists ev0 o0, sofa_init E c false "latest" VAuto = (ev0, Ok o0)
    /\ (exists ws, Forall2 (fun a w => normalize (ad_value a) = Ok w) l ws /\ pub o = pub o0 ++ combine (map ad_name l) ws)
    /\ NoDup (dkeys (pub o)) /\ ro o = ro o0 /\ prot o = true
    /\ is_ok (m_res (verify E HRaise VWrite o)) = true /\ m_obj (verify E HRaise VWrite o) = o
    /\ (forall k, dget k (customs o) <> None <-> In k (map ad_name l) /\ ~ In k (dkeys (conv o0)))
    /\ (forall a, In a l -> ~ In (ad_name a) (dkeys (conv o0)) ->
          exists e, dget (ad_name a) (customs o) = Some e
             /\ e_type e = ad_type a /\ e_dims e = option_map spelled (ad_dims a) /\ e_flags e = None).
Proof.
  intros E c l ev o DB F H. apply script_Ok in H. destruct H as [ev0 [o0 [o1 [e1 [e2 [r [H1 [H2 [H3 _]]]]]]]]].
  exists ev0, o0. split; [exact H1|]. assert (G := adds_grow l o0 o1 e1 F H2). destruct G as [[ws [W1 W2]] G2 G3 G4 G5 GK G6 G7].
  destruct (armed_init _ _ _ _ _ _ _ DB H1) as [v [AR [PR [LO [NC [RO [CU _]]]]]]].
  assert (VP := verify_raise_pub (normative_keys E) E VWrite o1). unfold verify in H3. rewrite H3 in VP. cbn [m_obj fst] in VP. destruct VP as [V1 V2].
  change (verify E HRaise VWrite o1 = (o, e2, Ok r)) in H3.
  assert (TW := verify_raise_twice E VWrite o1). rewrite H3 in TW. cbn [m_obj fst] in TW.
  split; [exists ws; split; [exact W1|rewrite V1; exact W2]|].
  assert (ND : NoDup (dkeys (pub o))).
  { rewrite V1. assert (NA : forall l o0 o1 e1, NoDup (dkeys (pub o0)) -> Forall (fun a => is_private (ad_name a) = false) l -> mfor l add_one o0 = (o1, e1, Ok tt) -> NoDup (dkeys (pub o1))).
    { clear. induction l as [|a l IH]; intros o0 o1 e1 N F H; [cbn in H; injection H as <- _; exact N|].
      inversion F as [|? ? P F']; subst. cbn [mfor] in H. apply bind_Ok in H. destruct H as [q [f1 [[] [f2 [B1 [B2 _]]]]]].
      rewrite add_one_entry in B1. destruct (add_entry_ok _ _ _ _ _ _ _ _ B1 P) as [A1 [_ [_ [w [_ [A5 _]]]]]].
      apply (IH q o1 f2); [|exact F'|exact B2]. rewrite A5. unfold dkeys. rewrite map_app. cbn [map fst].
      unfold hasattr in A1. apply orb_false_iff in A1. destruct A1 as [A1 _]. apply dmem_false in A1.
      change (map fst (pub o0)) with (dkeys (pub o0)). revert N A1. generalize (dkeys (pub o0)) as ks. intros ks N A1.
      apply NoDup_rev in N. rewrite <- (rev_involutive (ks ++ [ad_name a])). apply NoDup_rev. rewrite rev_app_distr. cbn [rev app].
      constructor; [rewrite <- in_rev; exact A1|exact N]. }
    exact (NA l o0 o1 e1 (proj1 (init_dicts _ _ _ _ _ _ _ H1)) F H2). }
  split; [exact ND|]. split; [rewrite V2; exact G2|].
  destruct (raise_ok_core _ _ _ _ _ _ H3) as [o2 [f1 [w [a [d [R [_ [_ [_ [OD _]]]]]]]]]].
  assert (PO : prot o = true) by (rewrite OD; reflexivity).
  split; [exact PO|]. rewrite TW. split; [reflexivity|]. split; [reflexivity|].
  destruct (ar_name _ _ _ _ _ AR) as [b1 N1]. destruct (ar_version _ _ _ _ _ AR) as [b2 N2].
  assert (P1 : dget "GLOBAL_SOFAConventions" (pub o1) = Some (VStr b1 c)) by (rewrite W2, dget_app, N1; reflexivity).
  assert (P2 : dget "GLOBAL_SOFAConventionsVersion" (pub o1) = Some (VStr b2 v)) by (rewrite W2, dget_app, N2; reflexivity).
  assert (VC := verify_custom E VWrite o1 o e2 r b1 c v (conv o0) H3 P1 (ex_intro _ b2 P2) (ar_load _ _ _ _ _ AR)).
  assert (C0 : forall k, dget k (customs o0) = None) by (intro k; unfold customs; rewrite CU; reflexivity).
  assert (KN : forall k, In k (dkeys (conv o0)) -> dget k (customs o) = None).
  { intros k I. assert (K1 := GK k I). rewrite C0 in K1.
    assert (CO : customs o = customs o2) by (rewrite OD; reflexivity). rewrite CO.
    destruct (reset_convention_cases E o1) as [[x R']|[c' [bb [v' [cv' [_ [_ [_ [_ R']]]]]]]]]; rewrite R' in R; [discriminate R|].
    unfold customs in *. destruct (custom o1) as [cu|] eqn:CQ; injection R as <-; [|cbn [custom with_conv]; rewrite CQ; reflexivity].
    cbn [custom with_custom]. unfold keep_custom. rewrite (dget_filter (fun j => negb (dmem j cv'))), K1. destruct (negb (dmem k cv')); reflexivity. }
  assert (UN : forall k, ~ In k (dkeys (conv o0)) -> dget k (conv o0) = None).
  { intros k N. apply dmem_false in N. unfold dmem in N. destruct (dget k (conv o0)); [discriminate N|reflexivity]. }
  split.
  - intro k. destruct (in_dec string_dec k (dkeys (conv o0))) as [I|N].
    + rewrite (KN k I). split; [congruence|intros [_ X]; contradiction].
    + rewrite (VC k (UN k N)). destruct (in_dec string_dec k (map ad_name l)) as [J|J].
      * split; [auto|]. intros _. apply in_map_iff in J. destruct J as [x [<- J]]. apply dmem_false in N.
        destruct (G4 x J N) as [e [Q _]]. rewrite Q. discriminate.
      * rewrite (G5 k J), C0. split; [congruence|intros [X _]; contradiction].
  - intros x I N. rewrite (VC _ (UN _ N)). apply (G4 x I). apply dmem_false. exact N.
Qed.
Print Assumptions C104_result.

(** the script returns exactly if the object can be created, every addition is allowed by what is
    there before it, and verify accepts the object *)
Theorem C104_returns : forall E c l, Forall usual l ->
  ((exists ev o, script E c l = (ev, Ok o)) <->
   exists ev0 o0, sofa_init E c false "latest" VAuto = (ev0, Ok o0)
     /\ (forall before a after, l = before ++ a :: after ->
           allowed (dkeys (pub o0) ++ map ad_name before) (dkeys (conv o0) ++ map ad_name before) a)
     /\ is_ok (m_res (verify E HRaise VWrite (run E o0 (map op_of l)))) = true).
Proof.
  intros E c l F. assert (FP : forall l, Forall usual l -> Forall (fun a => is_private (ad_name a) = false) l).
  { intros l0 G. eapply Forall_impl; [|exact G]. intros x U. apply U. }
  split.
  - intros [ev [o H]]. apply script_Ok in H. destruct H as [ev0 [o0 [o1 [e1 [e2 [r [H1 [H2 [H3 _]]]]]]]]].
    exists ev0, o0. split; [exact H1|]. split.
    + intros before a after Q. rewrite Q in H2. destruct (mfor_app _ _ _ _ _ _ H2) as [q [f1 [f2 [K1 K2]]]].
      rewrite Q in F. apply Forall_app in F. destruct F as [F1 F2]. inversion F2 as [|? ? U F3]; subst.
      apply (documented_allowed before o0 q a (adds_grow _ _ _ _ (FP _ F1) K1)); [apply U|].
      cbn [mfor] in K2. apply bind_Ok in K2. destruct K2 as [q1 [g1 [[] [g2 [K3 _]]]]]. rewrite add_one_entry in K3.
      destruct U as [U1 [U2 U3]]. apply (add_entry_accepts _ _ _ _ q U1 U2 U3). rewrite K3. reflexivity.
    + rewrite <- (mfor_run E l o0 o1 e1 H2), H3. reflexivity.
  - intros [ev0 [o0 [H1 [H2 H3]]]]. destruct (adds_succeed l [] o0 o0 [] F eq_refl H2) as [o1 [e1 K]].
    rewrite <- (mfor_run E l o0 o1 e1 K) in H3. destruct (verify E HRaise VWrite o1) as [[o e2] [r|x]] eqn:V; [|discriminate H3].
    exists (ev0 ++ e1 ++ e2), o. apply script_Ok. exists ev0, o0, o1, e1, e2, r. auto.
Qed.
Print Assumptions C104_returns.

(** ** _complete_sofa *)
Lemma complete_usual : Forall usual complete_additions.
Proof.
  repeat constructor; try (vm_compute; reflexivity);
    (intros [x [a [Q _]]]; vm_compute in Q; discriminate Q).
Qed.
(** for every convention that has none of the names *)
Theorem C104_complete : forall E c ev0 o0, db_ok E -> sofa_init E c false "latest" VAuto = (ev0, Ok o0) ->
  (forall a, In a complete_additions -> ~ In (ad_name a) (dkeys (pub o0))) ->
  (is_ok (m_res (verify E HRaise VWrite (run E o0 (map op_of complete_additions)))) = true
   <-> exists ev o, complete_sofa E c = (ev, Ok o)
        /\ dkeys (pub o) = dkeys (pub o0) ++ map ad_name complete_additions
        /\ is_ok (m_res (verify E HRaise VWrite o)) = true).
Proof.
  intros E c ev0 o0 DB I0 N. split.
  - intro V. destruct (proj2 (C104_returns E c complete_additions complete_usual)) as [ev [o S]].
    { exists ev0, o0. split; [exact I0|]. split; [|exact V]. intros before a after Q.
      assert (IA : In a complete_additions) by (rewrite Q; apply in_elt).
      assert (CC : forallb (fun i => match skipn i complete_additions with
          | [] => true
          | b :: _ => negb (smem (ad_name b) (map ad_name (firstn i complete_additions))) && negb (smem (ad_name b) class_attrs)
              && (if String.eqb (ad_type b) "attribute" then
                    match before_last "_" (ad_name b) with
                    | Some var => negb (has_char "_" (after_last "_" (ad_name b))) && (String.eqb (var +++ "_" +++ after_last "_" (ad_name b)) (ad_name b))
                         && (String.eqb var "GLOBAL" || (smem var (map ad_name (firstn i complete_additions)) && negb (has_char "_" var)))
                    | None => false end
                  else smem (ad_type b) ["double"; "string"] && negb (has_char "_" (ad_name b)) && match ad_dims b with Some _ => true | None => false end)
          end) (seq 0 (List.length complete_additions)) = true) by (vm_compute; reflexivity).
      rewrite forallb_forall in CC. specialize (CC (List.length before)).
      assert (LT : In (List.length before) (seq 0 (List.length complete_additions))) by (apply in_seq; rewrite Q, app_length; cbn [List.length]; lia).
      specialize (CC LT). rewrite Q in CC. rewrite skipn_app, skipn_all, Nat.sub_diag in CC. cbn [skipn app] in CC.
      rewrite firstn_app, firstn_all, Nat.sub_diag in CC. cbn [firstn] in CC. rewrite app_nil_r in CC.
      apply andb_true_iff in CC. destruct CC as [CC C3]. apply andb_true_iff in CC. destruct CC as [C1 C2].
      assert (NS : forall k l, negb (smem k l) = true -> ~ In k l).
      { intros k l H J. apply smem_In in J. rewrite J in H. discriminate H. }
      split; [intro J; apply in_app_or in J; destruct J as [J|J]; [exact (N a IA J)|exact (NS _ _ C1 J)]|].
      split; [exact (NS _ _ C2)|]. destruct (String.eqb_spec (ad_type a) "attribute") as [T|T].
      - right. split; [exact T|]. destruct (before_last "_" (ad_name a)) as [var|]; [|discriminate C3].
        apply andb_true_iff in C3. destruct C3 as [C3 C5]. apply andb_true_iff in C3. destruct C3 as [C3 C4]. apply String.eqb_eq in C4.
        exists var, (after_last "_" (ad_name a)). split; [symmetry; exact C4|]. split; [apply negb_true_iff; exact C3|].
        apply orb_true_iff in C5. destruct C5 as [C5|C5]; [left; apply String.eqb_eq; exact C5|].
        apply andb_true_iff in C5. destruct C5 as [C5 C6]. right. split; [|apply negb_true_iff; exact C6]. apply in_or_app. right. apply smem_In. exact C5.
      - left. apply andb_true_iff in C3. destruct C3 as [C3 C5]. apply andb_true_iff in C3. destruct C3 as [C3 C4].
        split; [apply smem_In; exact C3|]. split; [apply negb_true_iff; exact C4|]. destruct (ad_dims a); [discriminate|discriminate C5]. }
    exists ev, o. split; [exact S|].
    assert (FP : Forall (fun a => is_private (ad_name a) = false) complete_additions).
    { eapply Forall_impl; [|exact complete_usual]. intros x U. apply U. }
    destruct (C104_result E c complete_additions ev o DB FP S) as [ev1 [o1 [I1 [[ws [W1 W2]] [_ [_ [_ [V1 _]]]]]]]].
    rewrite I0 in I1. injection I1 as <- <-. split; [|exact V1]. rewrite W2. unfold dkeys. rewrite map_app. f_equal.
    clear - W1. revert ws W1. induction complete_additions as [|x l IH]; intros ws F; [reflexivity|].
    inversion F; subst. cbn [map combine fst]. f_equal. apply IH. assumption.
  - intros [ev [o [S _]]]. destruct (proj1 (C104_returns E c complete_additions complete_usual) (ex_intro _ ev (ex_intro _ o S))) as [ev1 [o1 [I1 [_ V]]]].
    rewrite I0 in I1. injection I1 as _ <-. exact V.
Qed.
Print Assumptions C104_complete.

(** ** a convention without the names, as GeneralTF *)
Definition general_tf : convention :=
  filter (fun ke => negb (smem (fst ke) ["GLOBAL:SOFAConventions"; "RoomTemperature"; "RoomTemperature:Units"]))
    (("GLOBAL:SOFAConventions", attr rm "GeneralTF") :: hrir "1.0")
  ++ [("GLOBAL:SOFAConventions", attr rm "GeneralTF")].
Definition with_tf : env :=
  Env (("GeneralTF_1.0.json", general_tf) :: db demo) (rules demo) (("cubic metre", "cubic metre") :: aliases demo) (deprecations demo) (upgrades demo) (str_of demo)
    (type_of demo) (now demo) (sofar_version demo) (python_version demo).
Definition completed : sofa := match snd (complete_sofa with_tf "GeneralTF") with Ok o => o | Err _ => empty_sofa end.
Lemma with_tf_ok : db_ok with_tf.
Proof.
  destruct demo_db_ok as [D1 D2]. split.
  - change (map fst (db with_tf)) with ("GeneralTF_1.0.json" :: map fst (db demo)). constructor; [|exact D1]. cbn. intuition discriminate.
  - intros f [<-|I]; [|apply D2; exact I]. exists "GeneralTF", "1.0". repeat split; try reflexivity; try discriminate.
    + vm_compute. intuition discriminate.
    + do 2 eexists. repeat split; reflexivity.
    + do 2 eexists. repeat split; reflexivity.
Qed.
Example C104_case :
  db_ok with_tf /\
  Forall usual complete_additions
  /\ (forall a, In a complete_additions -> ~ In (ad_name a) (dkeys (pub match sofa_init with_tf "GeneralTF" false "latest" VAuto with (_, Ok o) => o | _ => empty_sofa end)))
  /\ is_ok (snd (complete_sofa with_tf "GeneralTF")) = true
  /\ dget "RoomVolume" (pub completed) = Some (VScal (EInt 200%Z))
  /\ dget "EmitterDescriptions" (pub completed) = Some (VStr true "emitter array")
  /\ dget "ListenerView" (pub completed) = Some (VArr (Arr KI [1; 3] [EInt 1; EInt 0; EInt 0]%Z false))
  /\ List.length (customs completed) = 31
  /\ snd (complete_sofa demo "SimpleFreeFieldHRIR") = Err (Exn EValueError "Entry RoomTemperature already exists").
Proof.
  split; [exact with_tf_ok|]. split; [exact complete_usual|]. split.
  { assert (H : forallb (fun a => negb (smem (ad_name a) (dkeys (pub match sofa_init with_tf "GeneralTF" false "latest" VAuto with (_, Ok o) => o | _ => empty_sofa end)))) complete_additions = true)
      by (vm_compute; reflexivity).
    rewrite forallb_forall in H. intros a I J. specialize (H a I). apply smem_In in J. rewrite J in H. discriminate H. }
  vm_compute. repeat split; reflexivity.
Qed.
