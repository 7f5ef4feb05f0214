(** Sizes given by get_dimension and after verify. *)
From Verif Require Import Base PyStr PyNum NdArray Sofa Verify Upgrade SpecAttr SpecInit SpecVerify
  BaseFacts StrFacts AttrFacts OpFacts InitFacts ProtFacts AddDelFacts MissingFacts CoreFacts
  ValidFacts ShapeFacts RuleFacts VerifyFacts DictFacts IssueFacts.
From Coq Require Import NArith Lia RelationClasses.
Open Scope string_scope.
Open Scope list_scope.

Lemma own_custom_keep cv o cu :
  custom o = Some cu -> own_custom cv o = keep_custom cv cu.
Proof. intro H. unfold own_custom. rewrite H. reflexivity. Qed.

Lemma keep_keep cv cu : keep_custom cv (keep_custom cv cu) = keep_custom cv cu.
Proof.
  unfold keep_custom. induction cu as [|x cu IH]; [reflexivity|]. cbn.
  destruct (negb (dmem (fst x) cv)) eqn:N; [|exact IH]. cbn. rewrite N, IH. reflexivity.
Qed.

Lemma own_custom_reset cv o o1 o2 : reset_to cv o o1 -> custom o2 = custom o1 ->
  own_custom cv o2 = own_custom cv o.
Proof.
  intros R C. assert (H := rt_custom _ _ _ R). rewrite <- C in H. unfold own_custom.
  destruct (custom o) as [cu|]; cbn [option_map] in H; rewrite H; [|reflexivity].
  apply keep_keep.
Qed.

Lemma reset_to_self cv o o1 o2 : reset_to cv o o1 -> conv o2 = conv o1 -> custom o2 = custom o1 ->
  reset_to cv o2 o2.
Proof.
  intros R CV CU. assert (OC := own_custom_reset _ _ _ _ R CU). constructor.
  - intro k. rewrite CV, (rt_conv _ _ _ R). unfold declared. rewrite OC. reflexivity.
  - rewrite CV. apply (rt_nodup _ _ _ R).
  - reflexivity.
  - rewrite CU, (rt_custom _ _ _ R). destruct (custom o); cbn [option_map]; [|reflexivity].
    rewrite keep_keep. reflexivity.
Qed.

Lemma size_ext cv o o' x n : pub o' = pub o -> own_custom cv o' = own_custom cv o ->
  size cv o' x n <-> size cv o x n.
Proof.
  intros P OC. unfold size, longest, string_variable, all_states, variables, states, declared.
  rewrite P, OC. reflexivity.
Qed.

Lemma normalize_no_list v w : normalize v = Ok w -> is_list w = false.
Proof.
  unfold normalize. destruct v as [b s|x|a|l].
  - intro H; inversion H; reflexivity.
  - cbn [np_array rbind]. cbv zeta. destruct (Nat.eqb _ 1); [|intro H; inversion H; reflexivity].
    destruct (a_data _) as [|e t]; [discriminate|]. intro H; inversion H; subst.
    destruct e; reflexivity.
  - intro H; inversion H; reflexivity.
  - intro H. apply rbind_Ok in H. destruct H as [a [_ H]]. cbv zeta in H.
    destruct (Nat.eqb _ 1); [|inversion H; reflexivity].
    destruct (a_data _) as [|e t]; [discriminate|]. inversion H; subst. destruct e; reflexivity.
Qed.

Lemma add_defaults_same l : forall o, NoDup (map fst l) ->
  (forall k, In k (map fst l) -> ~ In k (dkeys (pub o))) ->
  grow o (m_obj (add_defaults l o)).
Proof. apply grow_add_defaults. Qed.

Lemma kdict_add_defaults l : always kdict (add_defaults l).
Proof. unfold add_defaults. alds. Qed.

Lemma contains_app a b s : contains s b = true -> contains s (a +++ b) = true.
Proof.
  induction a as [|c a IH]; intro H; [exact H|].
  change (String c a +++ b) with (String c (a +++ b)). cbn [contains]. rewrite (IH H). apply orb_true_r.
Qed.

Lemma prefix_app_l s b : String.prefix s (s +++ b) = true.
Proof. apply prefix_spec. eauto. Qed.

Lemma contains_prefix s b : contains s (s +++ b) = true.
Proof.
  destruct s as [|c s]; [destruct b; reflexivity|].
  change (String c s +++ b) with (String c (s +++ b)). cbn [contains].
  assert (P := prefix_app_l (String c s) b). change (String c s +++ b) with (String c (s +++ b)) in P.
  unfold startswith. rewrite P. reflexivity.
Qed.

Lemma update_dimensions_fresh E o o1 e1 u : db_ok E -> dicts_ok o ->
  update_dimensions E o = (o1, e1, Ok u) ->
  exists cv od s, convention_of E o cv /\ api o1 = Some (fixed_sizes s) /\ detect od = (s, Ok tt)
    /\ (forall d n, dget d (fixed_sizes s) = Some n <-> size cv o1 d n)
    /\ (pub o1 = pub o -> forall d n, size cv o1 d n -> size cv o d n).
Proof.
  intros DB DO H1.
  unfold update_dimensions in H1.
  apply bind_Ok in H1. destruct H1 as [o2 [e5 [iss [e6 [H1 [H2 _]]]]]].
  apply bind_Ok in H2. destruct H2 as [o2' [e7 [u' [e8 [H2 [H3 _]]]]]]. inversion H2; subst. clear H2.
  rename u' into o2.
  assert (IS : o2 = o1 /\ match iss with Some i => contains "data of wrong type" i = false | None => True end).
  { destruct iss as [i|]; [|inversion H3; auto].
    destruct (contains "data of wrong type" i); [discriminate|]. cbn [orb] in H3.
    destruct (_ || _); [discriminate|]. inversion H3; auto. }
  clear H3. destruct IS as [-> IS].
  unfold verify in H1. rewrite verify_gen_eq in H1.
  destruct (reset_none_or E o) as [[x R]|[r R]]; [rewrite (bind_fails _ _ _ _ _ _ R) in H1; discriminate|].
  rewrite (bind_silent _ _ _ _ _ R) in H1.
  destruct (reset_iff E o DB DO) as [RI _].
  destruct (RI _ R) as [b [c [w [content [V1 [V2 [V3 RT]]]]]]].
  set (cv := sofar_keys content) in *.
  exists cv.
  assert (RD := RT). rewrite rest_checked in H1. cbn [h_raise h_ignore negb when] in H1.
  apply bind_Ok in H1. destruct H1 as [o3 [e9 [u3 [e10 [H1 [H2 _]]]]]].
  rewrite bind_finish in H2.
  assert (GR : grow r o3).
  { assert (X := grow_add_defaults (missing r) r (missing_NoDup r (rt_nodup _ _ _ RT)) (missing_not_in r)).
    rewrite H1 in X. exact X. }
  assert (DO3 : dicts_ok o3).
  { assert (X := kdict_add_defaults (missing r) r). rewrite H1 in X. apply X.
    assert (Y := kdict_reset E o). rewrite R in Y. apply Y. exact DO. }
  destruct (checked _ _ _ _ _ _ _ o3) as [[o4 e11] rr] eqn:CK.
  unfold checked in CK. destruct (type_errors E o3 (dkeys (pub r))) as [terr|x] eqn:TE;
    [|inversion CK; subst; discriminate].
  cbv zeta in CK. cbn [andb negb] in CK. rewrite andb_true_r in CK.
  change ("" +++ section msg_type terr) with (section msg_type terr) in CK.
  destruct (String.eqb_spec (section msg_type terr) "") as [Q|Q]; cbn [negb] in CK.
  2:{ exfalso. inversion CK; subst. cbn [outcome] in H2.
      assert (IQ := f_equal snd H2). cbn [snd] in IQ. clear H2. unfold answer in IQ.
      rewrite (eqb_neq_s _ _ Q) in IQ. assert (OI : forall x y : option string, Ok x = Ok y -> x = y) by congruence. apply OI in IQ. subst iss. cbv iota beta in IS.
      assert (Q' : terr <> "") by (intros ->; apply Q; reflexivity).
      unfold section in IS. rewrite (eqb_neq_s _ _ Q') in IS. rewrite contains_app in IS; [discriminate|].
      replace msg_type with ("Detected " +++ ("data of wrong type" +++ ":" +++ nl)) by reflexivity.
      rewrite (sapp_assoc "Detected "), (sapp_assoc "Detected "). apply contains_app.
      rewrite (sapp_assoc "data of wrong type"), (sapp_assoc "data of wrong type"). apply contains_prefix. }
  apply section_nil in Q; [|discriminate]. subst terr.
  destruct (core _ _ _ _ o3) as [[o5 e12] r5] eqn:CO. inversion CK; subst o5 e12 rr. clear CK.
  destruct r5 as [[e w5]|x]; [|discriminate]. cbn [rbind outcome] in H2. inversion H2; subst. clear H2.
  unfold core in CO. destruct (name_errors o3 _) as [ne|]; [|inversion CO].
  destruct (cust_check _ o3) as [ev5 [ce|]]; [|inversion CO].
  destruct (dims_pure o3) as [[a' dd] [serr|x]] eqn:DP; [|inversion CO].
  inversion CO; subst. clear CO.
  destruct (dims_pure_detect _ _ _ _ DP) as [s [HD ->]]. exists o3, s. split; [exists b, c, w, content; auto|]. split; [reflexivity|]. split; [exact HD|].
  assert (RS : reset_to cv o3 o3) by (eapply reset_to_self; [exact RT|apply (gr_conv _ _ GR)|apply (gr_custom _ _ GR)]).
  assert (NL : no_lists o3).
  { intros k v GK. assert (AP := add_defaults_pub (missing r) r k). rewrite H1 in AP. cbn [m_obj fst] in AP.
    destruct AP as [AP|[e' [w' [_ [AP1 AP2]]]]].
    - assert (IK : In k (dkeys (pub r))) by (apply dget_Some_In; exists v; congruence).
      unfold type_errors in TE. apply (proj1 (rconcat_nil _ _)) with (x := k) in TE; [|exact IK].
      apply rbind_Ok in TE. destruct TE as [en [_ TE]]. apply rbind_Ok in TE. destruct TE as [v' [TE1 TE2]].
      unfold getattr in TE1. rewrite GK in TE1. inversion TE1; subst v'. inversion TE2 as [TE3].
      apply type_error_iff in TE3. destruct v as [| | |l]; try reflexivity. exfalso. unfold has_type in TE3.
      destruct TE3 as [[_ [x [y T]]]|[[_ [[z T]|[[f T]|[x [T _]]]]]|[_ [[x [y T]]|[x [T _]]]]]]; discriminate.
    - rewrite GK in AP2. inversion AP2; subst. eapply normalize_no_list. exact AP1. }
  split; [intros d n; apply (sizes_iff cv o3 o3 RS DO3 NL s HD)|].
  intros P d n SZ. apply (size_ext cv o o3); [exact P| |exact SZ].
  eapply own_custom_reset; [exact RT|apply (gr_custom _ _ GR)].
Qed.

Lemma get_dimension_fresh E d o o' ev n : db_ok E -> dicts_ok o ->
  get_dimension E d o = (o', ev, Ok n) ->
  exists cv, convention_of E o cv /\ size cv o' d n /\ (pub o' = pub o -> size cv o d n).
Proof.
  intros DB DO H. unfold get_dimension in H.
  apply bind_Ok in H. destruct H as [o1 [e1 [u [e2 [H1 [H2 _]]]]]].
  rewrite bind_get in H2.
  destruct (update_dimensions_fresh E o o1 e1 u DB DO H1) as [cv [od [s [C [A [_ [S1 S2]]]]]]].
  rewrite A in H2. destruct (dget d (fixed_sizes s)) as [m|] eqn:G; [|discriminate H2].
  injection H2 as <- _ <-. apply S1 in G. exists cv. split; [exact C|]. split; [exact G|]. intro P. apply S2; assumption.
Qed.

(** ** After a successful verify *)
Lemma raise_ok_core E m o o' ev r :
  verify E HRaise m o = (o', ev, Ok r) ->
  exists o1 e1 w a d, reset_convention E o = (o1, [], Ok tt)
    /\ missing o1 = [] /\ type_errors E o1 (dkeys (pub o1)) = Ok ""
    /\ core (normative_keys E) E m (dkeys (pub o1)) o1 = (o', e1, Ok ("", w))
    /\ o' = set_dims o1 a d /\ dims_pure o1 = (a, d, Ok "")
    /\ late_check E m o' a = Ok ("", w) /\ ev = e1 ++ told HRaise w "" /\ r = None.
Proof.
  intro H. unfold verify in H. rewrite verify_gen_eq in H.
  destruct (reset_none_or E o) as [[x R]|[o1 R]]; [rewrite (bind_fails _ _ _ _ _ _ R) in H; discriminate|].
  rewrite (bind_silent _ _ _ _ _ R) in H.
  assert (OK : is_ok (m_res (verify_rest (normative_keys E) E HRaise m o1)) = true) by (rewrite H; reflexivity).
  apply rest_raise_ok in OK. destruct OK as [M [T [w C]]].
  rewrite rest_complete in H by exact M. unfold checked in H. rewrite T in H. cbv zeta in H.
  cbn [section String.eqb negb andb append] in H.
  destruct (core (normative_keys E) E m (dkeys (pub o1)) o1) as [[o2 e1] rr] eqn:CO.
  unfold m_res in C. cbn [snd] in C. subst rr. cbn [rbind fst snd outcome append] in H. inversion H; subst.
  assert (CW : m_res (core (normative_keys E) E m (dkeys (pub o1)) o1) = Ok ("", w)) by (rewrite CO; reflexivity).
  apply core_ok in CW. destruct CW as [N1 [N2 [a [d [D L]]]]].
  assert (OD : o' = set_dims o1 a d).
  { unfold core in CO. rewrite N1 in CO. destruct (cust_check (normative_keys E) o1) as [ev' cc].
    cbn [snd] in N2. subst cc. rewrite D in CO. inversion CO; reflexivity. }
  exists o1, e1, w, a, d. rewrite CO. repeat (split; [first [assumption|reflexivity]|]).
  split; [rewrite OD; exact L|]. split; reflexivity.
Qed.

Lemma verified_dims E m o o' ev r : db_ok E -> dicts_ok o ->
  verify E HRaise m o = (o', ev, Ok r) ->
  exists cv a d, convention_of E o cv /\ api o' = Some a /\ dims o' = Some d
    /\ (forall x n, dget x a = Some n <-> size cv o x n)
    /\ (forall k, In k (variables cv o) -> exists e dd v s alt,
          declared cv o k = Some e /\ e_dims e = Some dd /\ dget k (pub o) = Some v
          /\ compared_shape (e_type e) dd v s /\ In alt (alternatives dd)
          /\ dget k d = Some (upper alt) /\ fits cv o s alt).
Proof.
  intros DB DO H. destruct (raise_ok_core _ _ _ _ _ _ H) as [o1 [e1 [w [a [d [R [M [T [_ [OD [D [L _]]]]]]]]]]]].
  destruct (reset_iff E o DB DO) as [RI _].
  destruct (RI _ R) as [b [c [wv [content [V1 [V2 [V3 RT]]]]]]].
  set (cv := sofar_keys content) in *.
  assert (TY := proj1 (types_iff E cv o o1 RT) T).
  assert (NL : no_lists o) by (eapply types_no_lists; exact TY).
  destruct (dims_pure_detect _ _ _ _ D) as [s [HD ->]].
  exists cv, (fixed_sizes s), d. split; [exists b, c, wv, content; auto|].
  split; [rewrite OD; reflexivity|]. split; [rewrite OD; reflexivity|].
  split; [apply (sizes_iff cv o o1 RT DO NL s HD)|].
  intros k IV. unfold dims_pure in D. rewrite HD in D. rewrite (dim_keys_eq cv o o1 RT) in D.
  destruct (check_shapes o1 (fixed_sizes s) (variables cv o) [] "") as [d' rr] eqn:CS.
  inversion D; subst d' rr.
  destruct (check_shapes_spec cv o o1 s (variables cv o) (fun k h => h) _ _ _ _ CS) as [I1 [_ I3]].
  destruct (proj1 I1 eq_refl k IV) as [dm CK].
  assert (DK := proj1 (I3 eq_refl k dm) IV CK).
  unfold check_shape in CK.
  apply rbind_Ok in CK. destruct CK as [act [H1 CK]]. apply rbind_Ok in CK. destruct CK as [dd [H2 CK]].
  apply rbind_Ok in CK. destruct CK as [mm [H3 CK]].
  destruct mm as [dm'|]; [|apply rbind_Ok in CK; destruct CK as [vb [_ CK]]; discriminate].
  inversion CK; subst dm'.
  destruct (match_alt_found cv o o1 RT DO NL s HD _ _ _ H3) as [pre [alt [post [A1 [_ [A2 ->]]]]]].
  unfold dims_of, dgetE in H2. rewrite (rt_conv _ _ _ RT) in H2.
  destruct (declared cv o k) as [e|] eqn:DE; [|discriminate]. cbn [rbind] in H2.
  destruct (e_dims e) as [d2|] eqn:ED; [|discriminate]. inversion H2; subst d2.
  destruct (dget k (pub o)) as [v|] eqn:G.
  - exists e, dd, v, act, alt. split; [reflexivity|]. split; [exact ED|]. split; [reflexivity|].
    split; [apply (shape_act_iff cv o o1 RT NL k e dd v act DE ED G); exact H1|].
    split; [unfold alternatives; rewrite A1; apply in_or_app; right; left; reflexivity|]. auto.
  - exfalso. unfold shape_act, getattr, dims_of, dgetE in H1. rewrite (rt_conv _ _ _ RT), (rt_pub _ _ _ RT), G, DE in H1.
    cbn [rbind] in H1. rewrite ED in H1. cbn [rbind] in H1. destruct (smem k class_attrs); discriminate.
Qed.

(** ** Writing and reading *)
Lemma write_read_ok E o : is_ok (m_res (verify E HRaise VWrite o)) = true ->
  is_ok (m_res (verify E HRaise VRead o)) = true.
Proof.
  unfold verify. rewrite !verify_gen_eq.
  destruct (reset_none_or E o) as [[x R]|[o1 R]]; [rewrite !(bind_fails _ _ _ _ _ _ R); exact id|].
  rewrite !(bind_silent _ _ _ _ _ R). rewrite !rest_raise_ok. intros [M [T [w C]]].
  split; [exact M|]. split; [exact T|]. apply core_ok in C. destruct C as [C1 [C2 [a [d [C3 C4]]]]].
  assert (L : exists w, late_check E VWrite (set_dims o1 a d) a = Ok ("", w)) by eauto.
  apply late_ok in L. destruct L as [L1 [_ [[dm [L3 _]] L4]]].
  assert (L' : exists w, late_check E VRead (set_dims o1 a d) a = Ok ("", w)).
  { apply late_ok. split; [exact L1|]. split; [discriminate|]. split; [|exact L4].
    exists dm. split; [exact L3|discriminate]. }
  destruct L' as [w' L']. exists w'. apply core_ok. eauto 10.
Qed.

(** ** Warnings *)
Lemma late_warning E m o a e w : late_check E m o a = Ok (e, w) ->
  exists dm pm, deprecation_msg E o = Ok dm /\ preliminary_msg E o = Ok pm
    /\ w = (if m_write m then "" else dm) +++ pm.
Proof.
  unfold late_check. intro H.
  apply rbind_Ok in H. destruct H as [x1 [_ H]]. apply rbind_Ok in H. destruct H as [x2 [_ H]].
  apply rbind_Ok in H. destruct H as [dm [H1 H]]. apply rbind_Ok in H. destruct H as [pm [H2 H]].
  exists dm, pm. split; [exact H1|]. split; [exact H2|].
  exact (f_equal (fun x => match x with Ok y => snd y | Err _ => w end) (eq_sym H)).
Qed.

Lemma contains_l s a b : contains s a = true -> contains s (a +++ b) = true.
Proof.
  intro H. assert (X : exists p q, a = p +++ s +++ q).
  { clear b. induction a as [|c a IH].
    - exists "", "". cbn [contains] in H. rewrite orb_false_r in H. apply prefix_spec in H.
      destruct H as [r H]. destruct s; [reflexivity|discriminate].
    - cbn [contains] in H. apply orb_true_iff in H. destruct H as [H|H].
      + apply prefix_spec in H. destruct H as [r H]. exists "", r. exact H.
      + destruct (IH H) as [p [q ->]]. exists (String c p), q. reflexivity. }
  destruct X as [p [q ->]]. rewrite !sapp_assoc. apply contains_app. apply contains_prefix.
Qed.

(** ** Objects after verify returned are complete *)
Lemma add_defaults_ok l : forall o o1 ev u, add_defaults l o = (o1, ev, Ok u) ->
  (forall k, In k (dkeys (pub o)) -> In k (dkeys (pub o1)))
  /\ forall k e, In (k, e) l -> k <> "protected" -> In k (dkeys (pub o1)).
Proof.
  induction l as [|[j e] l IH]; intros o o1 ev u H.
  { inversion H; subst. split; [auto|]. intros k e []. }
  unfold add_defaults in *. cbn [mfor fst snd] in H.
  apply bind_Ok in H. destruct H as [o2 [e1 [v [e2 [H1 [H2 _]]]]]].
  destruct (IH _ _ _ _ H2) as [G1 G2]. clear IH H2.
  apply bind_Ok in H1. destruct H1 as [o3 [e3 [v3 [e4 [H1 [H3 _]]]]]]. inversion H1; subst. clear H1.
  apply bind_Ok in H3. destruct H3 as [o4 [e5 [v4 [e6 [H3 [H4 _]]]]]]. inversion H4; subst. clear H4.
  assert (K : (forall k, In k (dkeys (pub o)) -> In k (dkeys (pub o4)))
              /\ (j <> "protected" -> In j (dkeys (pub o4)))).
  { destruct (set_attr_cases j (e_default e) (with_prot o false)) as [[x A]|[[bb [A0 [_ A]]]|[w [N [_ [A _]]]]]];
      rewrite A in H3; inversion H3; subst.
    - split; [auto|]. congruence.
    - cbn [pub with_pub with_prot]. split; intros; apply In_dkeys_dset; auto. }
  destruct K as [K1 K2]. split.
  - intros k I. apply G1. cbn [pub with_prot]. auto.
  - intros k e' [I|I] NP; [|eauto]. inversion I; subst. apply G1. cbn [pub with_prot]. auto.
Qed.

Lemma convention_unique E o cv cv' : db_ok E -> convention_of E o cv -> convention_of E o cv' -> cv' = cv.
Proof.
  intros DB [b [c [w [ct [G1 [G2 [G3 ->]]]]]]] [b' [c' [w' [ct' [G1' [G2' [G3' ->]]]]]]].
  rewrite G1 in G1'. rewrite G2 in G2'. inversion G1'; inversion G2'; subst.
  assert (N := proj1 DB). unfold has_file in *.
  apply (In_dget _ _ _ N) in G3. apply (In_dget _ _ _ N) in G3'. congruence.
Qed.

Definition no_flags (o : sofa) : Prop := forall cu k e, custom o = Some cu ->
  dget k cu = Some e -> is_mandatory (e_flags e) = false.

Lemma verify_completes E h m o o' ev r : db_ok E -> dicts_ok o -> no_flags o -> h <> HRaise ->
  verify E h m o = (o', ev, Ok r) -> complete E o' /\ dicts_ok o'.
Proof.
  intros DB DO NF NR H. assert (DO' : dicts_ok o').
  { assert (X := kdict_verify E h m o DO). rewrite H in X. exact X. }
  split; [|exact DO'].
  unfold verify in H. rewrite verify_gen_eq in H.
  destruct (reset_none_or E o) as [[x R]|[o1 R]]; [rewrite (bind_fails _ _ _ _ _ _ R) in H; discriminate|].
  rewrite (bind_silent _ _ _ _ _ R), rest_checked in H.
  destruct (reset_iff E o DB DO) as [RI _].
  destruct (RI _ R) as [b [c [w [content [V1 [V2 [V3 RT]]]]]]].
  apply bind_Ok in H. destruct H as [o2 [e1 [u [e2 [H1 [H2 _]]]]]].
  assert (HR : h_raise h = false) by (destruct h; [congruence|reflexivity..]).
  rewrite HR in H1. cbn [negb when] in H1.
  destruct (add_defaults_ok _ _ _ _ _ H1) as [A1 A2].
  assert (GR : grow o1 o2).
  { assert (X := grow_add_defaults (missing o1) o1 (missing_NoDup o1 (rt_nodup _ _ _ RT)) (missing_not_in o1)).
    rewrite H1 in X. exact X. }
  rewrite bind_finish in H2. destruct (checked _ _ _ _ _ _ _ o2) as [[o3 ev3] r3] eqn:CK.
  destruct (checked_stable _ _ _ _ _ _ _ _ _ _ _ CK) as [O3 _].
  assert (O' : o' = o3) by (destruct r3 as [[? ?]|?]; inversion H2; reflexivity). subst o'.
  assert (P3 : pub o3 = pub o2) by (destruct O3 as [->|[a [d ->]]]; reflexivity).
  assert (C3 : custom o3 = custom o1).
  { rewrite <- (gr_custom _ _ GR). destruct O3 as [->|[a [d ->]]]; reflexivity. }
  assert (OC := own_custom_reset _ _ _ _ RT C3).
  assert (CV : convention_of E o3 (sofar_keys content)).
  { exists b, c, w, content. rewrite P3. split; [apply (gr_pub _ _ GR); rewrite (rt_pub _ _ _ RT); exact V1|].
    split; [apply (gr_pub _ _ GR); rewrite (rt_pub _ _ _ RT); exact V2|auto]. }
  intros cv k e CV' D MA. assert (cv = sofar_keys content) by (eapply convention_unique; eassumption). subst cv.
  assert (D1 : dget k (conv o1) = Some e).
  { rewrite (rt_conv _ _ _ RT). unfold declared in *. rewrite OC in D. exact D. }
  unfold contained. rewrite P3.
  destruct (in_dec String.string_dec k (dkeys (pub o1))) as [I|N]; [apply A1; exact I|].
  apply (A2 k e).
  - unfold missing. apply filter_In. split; [apply dget_In; exact D1|]. cbn [fst snd]. rewrite MA.
    apply smem_false in N. rewrite N. reflexivity.
  - intros ->. rewrite (rt_conv _ _ _ RT) in D1. unfold declared in D1.
    destruct (dget "protected" (sofar_keys content)) as [e0|] eqn:Q.
    + destruct (proj2 DB _ V3) as [cc [vv [_ [_ [_ [_ [_ [NP _]]]]]]]]. apply NP.
      apply dget_Some_In. eauto.
    + unfold own_custom in D1. destruct (custom o) as [cu|] eqn:CU; [|discriminate].
      apply dget_In in D1. apply filter_In in D1. destruct D1 as [D1 _].
      apply In_dget in D1; [|destruct DO as [_ X]; rewrite CU in X; exact X].
      rewrite (NF _ _ _ CU D1) in MA. discriminate.
Qed.
