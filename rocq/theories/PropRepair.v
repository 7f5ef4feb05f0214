(** Deleted data of a new object are repaired by add_missing (C112). *)
From Coq Require Import ZArith Lia Permutation.
From Verif Require Import Base PyStr PyNum NdArray Sofa Verify Utils Demo
  SpecAttr SpecInit SpecVerify SpecOutline SpecOrder
  BaseFacts StrFacts AttrFacts OpFacts ReachFacts InitFacts MissingFacts CoreFacts ValidFacts VerifyFacts DictFacts DemoFacts OutlineFacts OrderFacts DimFacts
  PropVerify PropInit PropIo PropOutline PropOrder.
Open Scope string_scope.
Open Scope list_scope.
Open Scope nat_scope.

(** ** Statement *)

(** [o] has some of the data of [new] *)
Record part_of (o new : sofa) : Prop := {
  po_data : forall k w, dget k (pub o) = Some w -> dget k (pub new) = Some w;
  po_once : dicts_ok o;
  po_custom : custom o = None }.

(** default values whose shape is the same for the verification if they are added later:
    texts, numbers, and lists of numbers for two to four dimensions *)
Inductive restorable (e : entry) : Prop :=
| rs_text b s : e_default e = VStr b s -> restorable e
| rs_number x : e_default e = VScal x -> restorable e
| rs_list l a d : e_default e = VList l -> json_value (VList l) = true -> np_array (VList l) = Ok a -> numeric a ->
    e_dims e = Some d -> List.length (a_shape a) <= 4 ->
    2 <= String.length (main_alternative d) <= 4 -> restorable e.

(** ** Proofs *)
Lemma nd_axes s n : 2 <= n <= 4 -> List.length s <= 4 -> same_axes (sh_atleast_nd s n) (sh_atleast_2d s).
Proof.
  intros N L.
  assert (Q : exists t m, 2 <= List.length t /\ List.length t + m <= 4 /\ sh_atleast_2d s = t ++ repeat 1 0 /\ sh_atleast_nd s n = t ++ repeat 1 m).
  { exists (sh_atleast_2d s), (n - List.length (sh_atleast_2d s)).
    assert (L2 : 2 <= List.length (sh_atleast_2d s) <= 4) by (destruct s as [|a [|b s]]; cbn [sh_atleast_2d List.length] in *; lia).
    split; [apply L2|]. split; [lia|]. split; [symmetry; apply app_nil_r|].
    unfold sh_atleast_nd, pad1. destruct n as [|[|[|[|[|n]]]]]; try lia;
      destruct s as [|a [|b [|c [|d [|f s]]]]]; cbn [List.length] in L; try lia; reflexivity. }
  destruct Q as [t [m [Q1 [Q2 [-> ->]]]]]. apply axes_ones; lia.
Qed.

Lemma numeric_reshape a s : numeric a -> numeric (reshape a s).
Proof. intros [[K D]|[K D]]; [left|right]; split; assumption. Qed.

Lemma ones_of s : prod s = 1 -> s = repeat 1 (List.length s).
Proof.
  induction s as [|n s IH]; [reflexivity|]. cbn [prod List.length repeat]. intro P. apply Nat.eq_mul_1 in P.
  destruct P as [-> P]. f_equal. apply IH. exact P.
Qed.

Lemma restored_similar e w1 w2 : restorable e -> stored e = Ok w1 -> normalize (e_default e) = Ok w2 ->
  similar w1 w2 /\ ((forall l, e_default e <> VList l) -> w1 = w2).
Proof.
  intros R S N. unfold stored, init_default in S. destruct R as [b s D|x D|l a d D J NP NU ED L4 LD]; rewrite D in *.
  - cbn in S, N. injection S as <-. injection N as <-. split; [apply similar_alike; apply alike_same|reflexivity].
  - cbn [rbind] in S. assert (W : w1 = w2) by (rewrite N in S; congruence). subst w2.
    split; [apply similar_alike; apply alike_same|reflexivity].
  - split; [|intro H; destruct (H l eq_refl)]. rewrite ED in S. unfold atleast_nd in S. rewrite NP in S. cbn [rbind] in S.
    cbn [normalize] in S. injection S as <-. cbn [normalize] in N. rewrite NP in N. cbn [rbind] in N.
    assert (W := np_array_wf (VList l) a J NP). change (first_alt d) with (main_alternative d) in *.
    assert (SN : same_axes (sh_atleast_nd (a_shape a) (String.length (main_alternative d))) (sh_atleast_2d (a_shape a))) by (apply nd_axes; assumption).
    unfold a_size in N. cbn [reshape a_shape a_data] in N. rewrite prod_atleast_2d in N.
    destruct (Nat.eqb_spec (prod (a_shape a)) 1) as [P|P].
    + destruct (a_data a) as [|x t] eqn:AD; [discriminate N|]. injection N as <-.
      assert (X : numeric_scalar x /\ scalar_value x = VScal x).
      { destruct NU as [[_ H]|[_ H]]; destruct (H x) as [z ->]; try (rewrite AD; left; reflexivity); (split; [|reflexivity]); [left|right]; eauto. }
      destruct X as [X ->].
      apply (similar_array (reshape a _) x (List.length (sh_atleast_nd (a_shape a) (String.length (main_alternative d))))).
      * apply numeric_reshape. exact NU.
      * exact X.
      * unfold sh_atleast_nd, pad1. rewrite app_length, repeat_length.
        destruct (String.length (main_alternative d)) as [|[|[|[|[|n]]]]]; try lia;
          destruct (a_shape a) as [|i [|j [|k [|m [|f s]]]]]; cbn [List.length] in L4; try lia; cbn; lia.
      * cbn [reshape a_shape]. apply ones_of. rewrite <- (prod_atleast_2d (a_shape a)) in P. rewrite <- P.
        symmetry. apply (same_axes_seen _ _ SN).
    + injection N as <-. apply similar_alike. apply alike_arrays; [apply numeric_reshape; exact NU|apply numeric_reshape; exact NU|exact SN].
Qed.

(** the data of [new] in the order of [o] *)
Definition arranged (new o : sofa) : sofa :=
  with_pub new (flat_map (fun k => match dget k (pub new) with Some w => [(k, w)] | None => [] end) (dkeys (pub o))).

Lemma arranged_In ks (d : dict value) k w : In (k, w) (flat_map (fun k => match dget k d with Some w => [(k, w)] | None => [] end) ks) <-> In k ks /\ dget k d = Some w.
Proof.
  rewrite in_flat_map. split.
  - intros [x [X I]]. destruct (dget x d) as [y|] eqn:G; [|destruct I]. destruct I as [I|[]]. injection I as -> ->. auto.
  - intros [X G]. exists k. split; [exact X|]. rewrite G. left. reflexivity.
Qed.
Lemma arranged_keys ks (d : dict value) : (forall k, In k ks -> In k (dkeys d)) ->
  dkeys (flat_map (fun k => match dget k d with Some w => [(k, w)] | None => [] end) ks) = ks.
Proof.
  induction ks as [|k ks IH]; intro H; [reflexivity|]. cbn [flat_map]. destruct (dget k d) as [w|] eqn:G.
  - cbn [app]. unfold dkeys in *. cbn [map fst]. f_equal. apply IH. intros j J. apply H. right. exact J.
  - assert (I := H k (or_introl eq_refl)). apply dget_Some_In in I. destruct I as [w W]. congruence.
Qed.
Lemma NoDup_pairs {A} (d : dict A) : NoDup (dkeys d) -> NoDup d.
Proof. apply NoDup_map_inv. Qed.
Lemma arranged_perm new o : NoDup (dkeys (pub new)) -> NoDup (dkeys (pub o)) -> (forall k, contained o k <-> contained new k) ->
  Permutation (pub new) (pub (arranged new o)).
Proof.
  intros N1 N2 C. unfold arranged. cbn [pub with_pub]. apply NoDup_Permutation.
  - apply NoDup_pairs. exact N1.
  - apply NoDup_pairs. rewrite arranged_keys; [exact N2|]. intros k K. apply C. exact K.
  - intros [k w]. rewrite arranged_In. split.
    + intro I. assert (G := In_dget k w _ N1 I). split; [|exact G]. apply C. apply dget_Some_In. eauto.
    + intros [_ G]. apply dget_In. exact G.
Qed.

(** If data of a new object were deleted, [add_missing] gives an object that is accepted
    exactly if the new object is. Missing: default values that have another shape if they
    are added later ([C112_refuted]), and data written by the constructor. *)
Theorem C112_repaired_partial :
  forall E m c v vo ev new o b o' ev',
  db_ok E -> rules_tidy E -> v <> "latest" ->
  sofa_init E c false v vo = (ev, Ok new) ->
  (forall cv, convention_of E new cv -> orderly cv new) ->
  part_of o new ->
  contained o "GLOBAL_SOFAConventions" -> contained o "GLOBAL_SOFAConventionsVersion" ->
  (forall k, dget k (creation_entries E) <> None -> contained o k) ->
  ~ In "protected" (dkeys (conv new)) ->
  (forall k e, dget k (conv new) = Some e -> ~ contained o k -> restorable e) ->
  (forall k r sp e l, In (k, r) (rules E) -> r_specific r = Some sp -> dget (python_name k) (conv new) = Some e ->
     ~ contained o (python_name k) -> e_default e <> VList l) ->
  add_missing E true true b o = (o', ev', Ok tt) ->
  is_ok (m_res (verify E HRaise m o')) = is_ok (m_res (verify E HRaise m new)).
Proof.
  intros E m c v vo ev new o b o' ev' DB RT NL HI OR [PD PO PC] C1 C2 CE NP RS RU HA.
  destruct (armed_init E c false v vo ev new DB HI) as [v' [A [_ [HL [NC [_ [CU HV]]]]]]]. rewrite (HV NL) in *. clear v' HV.
  destruct (add_missing_Ok E true true b o o' ev' tt HA) as [o1 [R [CO [CC K]]]].
  assert (CV : conv o1 = conv new /\ custom o1 = None).
  { destruct (reset_convention_cases E o) as [[x R']|[c' [bb [vv [cv [X1 [X2 [_ [X4 R']]]]]]]]];
      rewrite R in R'; [discriminate|].
    apply PD in X1. apply PD in X2. destruct (ar_name _ _ _ _ _ A) as [b1 A1]. destruct (ar_version _ _ _ _ _ A) as [b2 A2].
    rewrite A1 in X1. injection X1 as _ <-. rewrite A2 in X2. injection X2 as <-. cbn [py_str] in X4. rewrite HL in X4. injection X4 as <-.
    rewrite PC in R'. injection R' as ->. split; [reflexivity|exact PC]. }
  destruct CV as [CV CN]. rewrite CV in K. destruct (K NP) as [_ [_ [K1 [K2 [K3 _]]]]]. clear K.
  assert (DN := init_dicts _ _ _ _ _ _ _ HI).
  assert (DO' : dicts_ok o').
  { assert (X := step_dicts E o (OMissing true true b) PO). unfold step in X. cbn [run_op] in X. rewrite HA in X. exact X. }
  assert (WA : forall e, wanted true true e = true) by (intro e; unfold wanted; destruct (is_mandatory (e_flags e)); reflexivity).
  (* values *)
  assert (BOTH : forall k, match dget k (pub o), dget k (pub new), dget k (pub o') with
    | Some w, Some w1, Some w2 => w1 = w /\ w2 = w
    | Some _, _, _ => False
    | None, Some w1, Some w2 => exists e, dget k (conv new) = Some e /\ stored e = Ok w1 /\ normalize (e_default e) = Ok w2 /\ restorable e
    | None, None, None => True
    | None, _, _ => False
    end).
  { intro k. destruct (dget k (pub o)) as [w|] eqn:G.
    - rewrite (PD k w G), (K1 k w G). auto.
    - assert (NO : ~ contained o k) by (intro I; apply dget_Some_In in I; destruct I; congruence).
      assert (NK := NC k). destruct (dget k (creation_entries E)) as [s|] eqn:CK; [destruct NO; apply CE; congruence|].
      destruct (dget k (conv new)) as [e|] eqn:D.
      + destruct (init_stored E c false v vo ev new DB HI k e CK D) as [w1 [V1 V2]]; [apply orb_true_r|].
        destruct (K2 k e D (WA e) G) as [w2 [V3 V4]]. rewrite V1, V3. exists e. split; [reflexivity|]. split; [exact V2|]. split; [exact V4|].
        apply (RS k e D NO).
      + rewrite NK. rewrite (K3 k G); [exact I|]. intros e H. congruence. }
  assert (CT : forall k, contained o' k <-> contained new k).
  { intro k. unfold contained. rewrite <- !dget_Some_In. specialize (BOTH k).
    destruct (dget k (pub o)), (dget k (pub new)), (dget k (pub o')); try tauto; split; intros [x X]; eauto; discriminate X. }
  assert (PE := arranged_perm new o' (proj1 DN) (proj1 DO') CT).
  assert (RE : reordered new (arranged new o')).
  { split; [exact PE|]. unfold arranged. cbn [custom with_pub]. rewrite CU. exact I. }
  rewrite (C71_order_partial E m new (arranged new o') DB RT DN RE OR).
  assert (DG : forall k, dget k (pub (arranged new o')) = dget k (pub new)) by (intro k; apply (perm_dget _ _ k (proj1 DN) PE)).
  symmetry. apply similar_verified; [exact DB|exact RT| | |].
  - split; [apply (perm_keys _ _ (proj1 DN) PE)|]. unfold arranged. cbn [custom with_pub]. rewrite CU. exact I.
  - split.
    + unfold arranged. cbn [pub with_pub]. rewrite arranged_keys; [reflexivity|]. intros k X. apply CT. exact X.
    + intros k x y X Y. rewrite DG in X. specialize (BOTH k). rewrite X, Y in BOTH. destruct (dget k (pub o)) as [w|].
      * destruct BOTH as [-> ->]. apply similar_alike. apply alike_same.
      * destruct BOTH as [e [_ [S [N R1]]]]. apply (restored_similar e x y R1 S N).
    + rewrite DG. apply dget_Some_In in C2. destruct C2 as [w W]. rewrite (K1 _ _ W), (PD _ _ W). reflexivity.
    + unfold arranged. cbn [custom with_pub]. congruence.
  - intros k r sp x y IR SP X Y. rewrite DG in X. assert (B := BOTH (python_name k)). rewrite X, Y in B.
    destruct (dget (python_name k) (pub o)) as [w|] eqn:G.
    + destruct B as [-> ->]. apply alike_same.
    + destruct B as [e [D [S [N R1]]]]. destruct (restored_similar e x y R1 S N) as [_ Q]. rewrite Q; [apply alike_same|].
      intros l. apply (RU k r sp e l IR SP D). intro I1. apply dget_Some_In in I1. destruct I1. congruence.
Qed.
Print Assumptions C112_repaired_partial.

(** a list for one dimension becomes two-dimensional if it is added later *)
Definition flat_env : env := Env [("Flat_1.0.json", map (fun ke => if String.eqb (fst ke) "GLOBAL:SOFAConventions" then (fst ke, attr rm "Flat") else ke)
   (hrir "1.0" ++ [("Frequencies", var None "k" (zl [5; 6]%Z))]))] demo_rules demo_aliases [] demo_upgrades
      (fun _ => "?") (fun _ => "<class>") "2024-01-01 00:00:00" "sofar v1.2.2" "3.11".
Definition flat_new : sofa := match sofa_init flat_env "Flat" false "1.0" VAuto with (_, Ok o) => o | _ => demo_sofa end.
Definition flat_part : sofa := m_obj (del_attr "Frequencies" (with_prot flat_new false)).

Theorem C112_refuted :
  let o' := m_obj (add_missing flat_env true true false flat_part) in
  db_ok flat_env /\ snd (sofa_init flat_env "Flat" false "1.0" VAuto) = Ok flat_new
  /\ m_res (verify flat_env HRaise VWrite flat_new) = Ok None
  /\ m_res (verify flat_env HRaise VWrite flat_part) = Ok None
  /\ m_res (add_missing flat_env true true false flat_part) = Ok tt
  /\ exists x, m_res (verify flat_env HRaise VWrite o') = Err x.
Proof.
  cbv zeta. split.
  { split.
    - repeat constructor; cbn; intuition discriminate.
    - intros f [<-|[]]. exists "Flat", "1.0". repeat split; try reflexivity; try discriminate.
      * vm_compute. intuition discriminate.
      * do 2 eexists. repeat split; reflexivity.
      * do 2 eexists. repeat split; reflexivity. }
  repeat (split; [vm_compute; reflexivity|]). eexists. vm_compute. reflexivity.
Qed.
Print Assumptions C112_refuted.

(** an object without three of its data *)
Definition lost : list string := ["ReceiverPosition"; "Data_Delay"; "ListenerPosition_Units"].
Definition damaged : sofa := m_obj (del_attr "ListenerPosition_Units" (m_obj (del_attr "Data_Delay" (m_obj (del_attr "ReceiverPosition" (with_prot demo_sofa false)))))).
Definition repaired : sofa := m_obj (add_missing demo true true false damaged).

Lemma dget_filter_lost (d : dict value) k w : NoDup (dkeys d) ->
  dget k (filter (fun kw => negb (existsb (String.eqb (fst kw)) lost)) d) = Some w -> dget k d = Some w /\ ~ In k lost.
Proof.
  intros N G. apply dget_In in G. apply filter_In in G. destruct G as [G B]. split; [apply In_dget; assumption|].
  intro I. cbn [fst] in B. apply negb_true_iff in B.
  assert (X : existsb (String.eqb k) lost = true) by (apply existsb_exists; exists k; split; [exact I|apply String.eqb_refl]). congruence.
Qed.

Example C112_case :
  sofa_init demo "SimpleFreeFieldHRIR" false "1.0" VAuto = ([], Ok demo_sofa)
  /\ part_of damaged demo_sofa
  /\ (forall k e, dget k (conv demo_sofa) = Some e -> ~ contained damaged k -> In k lost /\ restorable e)
  /\ (forall k, dget k (creation_entries demo) <> None -> contained damaged k)
  /\ is_ok (m_res (verify demo HRaise VWrite damaged)) = false
  /\ pub repaired <> pub demo_sofa
  /\ is_ok (m_res (verify demo HRaise VWrite repaired)) = true.
Proof.
  assert (HI : sofa_init demo "SimpleFreeFieldHRIR" false "1.0" VAuto = ([], Ok demo_sofa)) by (vm_compute; reflexivity).
  split; [exact HI|]. assert (DN := init_dicts _ _ _ _ _ _ _ HI).
  assert (PD : part_of damaged demo_sofa).
  { assert (P : pub damaged = filter (fun kw => negb (existsb (String.eqb (fst kw)) lost)) (pub demo_sofa)) by (vm_compute; reflexivity).
    assert (CU : custom damaged = None) by (vm_compute; reflexivity).
    split; [intros k w; rewrite P; intro G; apply (dget_filter_lost _ _ _ (proj1 DN) G)| |exact CU].
    assert (B : PropIo.nodupb (dkeys (pub damaged)) = true) by (vm_compute; reflexivity).
    split; [exact (PropIo.nodupb_ok _ B)|rewrite CU; exact I]. }
  assert (RS : forall k e, dget k (conv demo_sofa) = Some e -> ~ contained damaged k -> In k lost /\ restorable e).
  { assert (B : forallb (fun ke => existsb (String.eqb (fst ke)) (dkeys (pub damaged)) || existsb (String.eqb (fst ke)) lost) (conv demo_sofa) = true)
      by (vm_compute; reflexivity).
    intros k e D NC. assert (L : In k lost).
    { rewrite forallb_forall in B. specialize (B (k, e) (dget_In _ _ _ D)). cbn [fst] in B. apply orb_true_iff in B.
      destruct B as [B|B]; apply existsb_exists in B; destruct B as [x [X Q]]; apply String.eqb_eq in Q; subst x; [destruct (NC X)|exact X]. }
    split; [exact L|]. destruct L as [<-|[<-|[<-|[]]]]; vm_compute in D; injection D as <-.
    - eapply rs_list; [reflexivity|reflexivity|vm_compute; reflexivity|left|reflexivity|cbn; lia|cbn; lia].
      split; [reflexivity|]. intros x X. cbn in X. repeat (destruct X as [<-|X]; [eexists; reflexivity|]). destruct X.
    - eapply rs_list; [reflexivity|reflexivity|vm_compute; reflexivity|left|reflexivity|cbn; lia|cbn; lia].
      split; [reflexivity|]. intros x X. cbn in X. repeat (destruct X as [<-|X]; [eexists; reflexivity|]). destruct X.
    - eapply rs_text; reflexivity. }
  split; [exact PD|]. split; [exact RS|].
  assert (CE : forall k, dget k (creation_entries demo) <> None -> contained damaged k).
  { assert (B : forallb (fun ke => existsb (String.eqb (fst ke)) (dkeys (pub damaged))) (creation_entries demo) = true) by (vm_compute; reflexivity).
    intros k N. destruct (dget k (creation_entries demo)) as [s|] eqn:G; [|destruct (N eq_refl)]. rewrite forallb_forall in B.
    specialize (B (k, s) (dget_In _ _ _ G)). apply existsb_exists in B. destruct B as [x [X Q]]. apply String.eqb_eq in Q. cbn [fst] in Q. subst x. exact X. }
  split; [exact CE|]. split; [vm_compute; reflexivity|].
  split; [intro Q; assert (B : map fst (pub repaired) = map fst (pub demo_sofa)) by (rewrite Q; reflexivity); vm_compute in B; discriminate B|].
  assert (HA : add_missing demo true true false damaged = (repaired, [], Ok tt)) by (vm_compute; reflexivity).
  rewrite (C112_repaired_partial demo VWrite "SimpleFreeFieldHRIR" "1.0" VAuto [] demo_sofa damaged false repaired [] demo_db_ok demo_rules_tidy
    ltac:(discriminate) HI); try assumption.
  - vm_compute. reflexivity.
  - intros cv C. apply orderlyb_ok.
    assert (C2 : convention_of demo demo_sofa (sofar_keys (hrir "1.0"))).
    { exists false, "SimpleFreeFieldHRIR", (VStr false "1.0"), (hrir "1.0"). vm_compute. repeat split; auto. }
    rewrite (convention_unique demo demo_sofa _ cv demo_db_ok C2 C). vm_compute. reflexivity.
  - unfold contained. vm_compute. tauto.
  - unfold contained. vm_compute. tauto.
  - vm_compute. intuition discriminate.
  - intros k e D N. apply (RS k e D N).
  - intros k r sp e l IR SP D NC. assert (L := proj1 (RS _ _ D NC)).
    assert (B : forallb (fun kr => match r_specific (snd kr) with Some _ => negb (existsb (String.eqb (python_name (fst kr))) ["ReceiverPosition"; "Data_Delay"]) | None => true end) (rules demo) = true)
      by (vm_compute; reflexivity).
    rewrite forallb_forall in B. specialize (B (k, r) IR). cbn [fst snd] in B. rewrite SP in B. apply negb_true_iff in B.
    destruct L as [L|[L|[L|[]]]]; rewrite <- L in B, D; try discriminate B. vm_compute in D. injection D as <-. discriminate.
Qed.
