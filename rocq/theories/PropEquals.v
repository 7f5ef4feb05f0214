(** C43-C46: equals. *)
From Verif Require Import Base PyStr PyNum NdArray Sofa Verify Utils Demo
  SpecAttr SpecInit SpecVerify SpecUpgrade SpecEquals
  BaseFacts StrFacts AttrFacts OpFacts InitFacts MissingFacts CoreFacts ValidFacts VerifyFacts DictFacts
  DemoFacts EqualsFacts PropVerify.
From Coq Require Import ZArith Lia Permutation.
Open Scope string_scope.
Open Scope list_scope.

(** ** C43 *)

(** A verified object equals itself and no warning is given. Missing: texts with
    other than ASCII characters ([C43_refuted]). *)
Theorem C43_reflexive_partial :
  forall E m o o' ev r x s verbose, db_ok E -> rules_tidy E -> dicts_ok o ->
  verify E HRaise m o = (o', ev, Ok r) -> regular o ->
  (forall k v, typed o' k "string" -> dget k (pub o) = Some v -> ascii_value v) ->
  option_of x s ->
  equals o' o' verbose s = ([], Ok true).
Proof.
  intros E m o o' ev r x s verbose DB RT DO V R A OX.
  destruct (verified_types E m o o' ev r DB RT DO V) as [DO' [PP T]].
  assert (R' : regular o') by (intros k v G; rewrite PP in G; exact (R k v G)).
  assert (P' : plain o') by (intros k v G; apply regular_plain; exact (R' k v G)).
  apply equals_silent. apply (equals_true_iff o' o' verbose x s OX DO' DO' P' P').
  - intros _. assert (AT : all_typed o'); [|split; exact AT].
    intros k K. apply dget_Some_In in K. destruct K as [v G]. destruct (T k v G) as [t [T1 _]]. eauto.
  - apply same_content_refl; [exact T|exact R'|]. intros k v T1 G. rewrite PP in G. eauto.
Qed.
Print Assumptions C43_reflexive_partial.

(** The result does not depend on the order of the entries. *)
Theorem C43_order :
  forall a b a' b' x s verbose verbose', option_of x s ->
  dicts_ok a -> dicts_ok b -> (x = ExAttr -> all_typed a /\ all_typed b) ->
  Permutation (pub a) (pub a') -> Permutation (pub b) (pub b') ->
  (forall k, dget k (conv a') = dget k (conv a)) -> (forall k, dget k (conv b') = dget k (conv b)) ->
  agree (snd (equals a b verbose s)) (snd (equals a' b' verbose' s)).
Proof.
  intros a b a' b' x s verbose verbose' OX [NA _] [NB _] AT PA PB CA CB.
  assert (ND : forall d d' : dict value, NoDup (dkeys d) -> Permutation d d' -> NoDup (dkeys d')).
  { intros d d' N P. unfold dkeys. apply (Permutation_NoDup (Permutation_map fst P) N). }
  assert (NA' := ND _ _ NA PA). assert (NB' := ND _ _ NB PB).
  assert (DG : forall (d d' : dict value) k, NoDup (dkeys d) -> Permutation d d' -> dget k d = dget k d').
  { intros d d' k N P. assert (N' := ND d d' N P). destruct (dget k d) as [v|] eqn:G.
    - symmetry. apply In_dget; [exact N'|]. apply (Permutation_in _ P). apply dget_In. exact G.
    - symmetry. apply dget_None. intro I. apply dget_None in G. apply G.
      apply (Permutation_in k (Permutation_sym (Permutation_map fst P)) I). }
  assert (CO : forall o o', Permutation (pub o) (pub o') -> (forall k, dget k (conv o') = dget k (conv o)) ->
     (forall k, contained o k <-> contained o' k) /\ (forall k t, typed o k t <-> typed o' k t)).
  { intros o o' P C. split.
    - intro k. unfold contained, dkeys. split; apply Permutation_in; apply Permutation_map; [exact P|apply Permutation_sym; exact P].
    - intros k t. unfold typed. rewrite C. reflexivity. }
  assert (CM : forall o o', Permutation (pub o) (pub o') -> (forall k, dget k (conv o') = dget k (conv o)) ->
     forall k, compared x o k <-> compared x o' k).
  { intros o o' P C k. destruct (CO o o' P C) as [C1 C2]. unfold compared. rewrite C1.
    assert (EX : excluded x o k <-> excluded x o' k) by (destruct x; cbn; [reflexivity|reflexivity|apply C2|reflexivity]).
    rewrite EX. reflexivity. }
  assert (TY : forall o o', Permutation (pub o) (pub o') -> (forall k, dget k (conv o') = dget k (conv o)) ->
     all_typed o -> all_typed o').
  { intros o o' P C H k K. destruct (CO o o' P C) as [C1 C2]. apply C1 in K. destruct (H k K) as [t T]. exists t. apply C2. exact T. }
  apply equals_ext with (x := x); auto.
  intro e. destruct (AT e) as [T1 T2]. repeat split; auto; eapply TY; eauto.
Qed.
Print Assumptions C43_order.

Definition regularb (v : value) : bool :=
  match v with
  | VStr _ _ => true
  | VScal x => negb (dkind_eqb (elt_kind x) KU)
  | VArr a => wf_arr a && negb (a_mask a) && forallb (fun x => dkind_eqb (elt_kind x) (a_kind a)) (a_data a)
  | VList _ => false
  end.
Lemma regularb_ok o : forallb (fun kv => regularb (snd kv)) (pub o) = true -> regular o.
Proof.
  intros H k v G. apply dget_In in G. rewrite forallb_forall in H. specialize (H _ G). cbn [snd] in H.
  assert (K : forall a b, dkind_eqb a b = true -> a = b) by (intros [] []; cbn; congruence).
  destruct v as [b s|x|a|l]; cbn in *; [exact I| | |discriminate].
  - intro X. rewrite X in H. discriminate.
  - apply andb_true_iff in H. destruct H as [H H3]. apply andb_true_iff in H. destruct H as [H1 H2].
    rewrite forallb_forall in H3. split; [exact H1|]. split; [destruct (a_mask a); [discriminate|reflexivity]|].
    intros x X. apply K, H3, X.
Qed.

(** a valid object with a text that has an umlaut does not equal itself: an
    exception is raised *)
Definition texts_of (s : string) : sofa := put "SourceDescriptions" (VArr (Arr KU [1] [EStr s] false)) demo_sofa.
Lemma texts_dicts s : dicts_ok (texts_of s).
Proof. unfold texts_of. apply put_dicts. exact demo_dicts. Qed.
Definition with_texts_of (s : string) : sofa := m_obj (verify demo HRaise VWrite (texts_of s)).
Definition umlaut : string := String (ascii_of_nat 252) "ber".

Theorem C43_refuted :
  ~ (forall E m o, db_ok E -> rules_tidy E -> dicts_ok o -> regular o -> valid E m o ->
       snd (equals (m_obj (verify E HRaise m o)) (m_obj (verify E HRaise m o)) false None) = Ok true).
Proof.
  intro H. specialize (H demo VWrite (texts_of umlaut) demo_db_ok demo_rules_tidy (texts_dicts umlaut)).
  assert (R : regular (texts_of umlaut)) by (apply regularb_ok; vm_compute; reflexivity).
  assert (V : valid demo VWrite (texts_of umlaut)).
  { apply C11_verify_iff_valid; [exact demo_db_ok|exact demo_rules_tidy|exact (texts_dicts umlaut)|].
    vm_compute. reflexivity. }
  specialize (H R V). clear R V.
  assert (X : is_ok (snd (equals (m_obj (verify demo HRaise VWrite (texts_of umlaut)))
                                 (m_obj (verify demo HRaise VWrite (texts_of umlaut))) false None)) = false)
    by (vm_compute; reflexivity).
  rewrite H in X. discriminate X.
Qed.
Print Assumptions C43_refuted.

Example C43_case :
  equals (with_texts_of "above") (with_texts_of "above") true None = ([], Ok true)
  /\ equals (with_texts_of "above") (with_texts_of "below") true None
     = ([EvWarn "not identical: different values for {key}"], Ok false)
  /\ equals (put "Data_Delay" (VArr (Arr KF [1; 2] [EFlt S754_nan; EFlt (S754_infinity true)] false)) demo_sofa)
            (put "Data_Delay" (VArr (Arr KF [1; 2] [EFlt S754_nan; EFlt (S754_infinity true)] false)) demo_sofa)
            true (Some "global") = ([], Ok true).
Proof. repeat split; vm_compute; reflexivity. Qed.

(** ** C44 *)

(** Symmetry, as long as no two numbers are close in one direction only.
    Missing: such numbers, see [C44_refuted]. *)
Theorem C44_symmetric_partial :
  forall a b x s verbose verbose', option_of x s -> dicts_ok a -> dicts_ok b -> plain a -> plain b ->
  (forall k va vb sa da sb db p q f g, compared x a k -> typed a k "double" ->
     dget k (pub a) = Some va -> dget k (pub b) = Some vb ->
     content_of va sa da -> content_of vb sb db -> In p da -> In q db ->
     number p f -> number q g -> (close f g <-> close g f)) ->
  agree (snd (equals a b verbose s)) (snd (equals b a verbose' s)).
Proof.
  intros a b x s verbose verbose' OX DA DB PA PB H. apply (equals_sym x); auto.
  intros k va vb K T G1 G2. split; intros sa da sb db p q C1 C2 P Q [f [g [N1 [N2 C]]]].
  - exists g, f. repeat (split; [assumption|]). exact (proj1 (H k va vb sa da sb db p q f g K T G1 G2 C1 C2 P Q N1 N2) C).
  - exists g, f. repeat (split; [assumption|]). exact (proj2 (H k va vb sb db sa da q p g f K T G1 G2 C2 C1 Q P N2 N1) C).
Qed.
Print Assumptions C44_symmetric_partial.

Definition at_rate (z : Z) : sofa := m_obj (verify demo HRaise VWrite (put "Data_SamplingRate" (zi z) demo_sofa)).
(** differs by slightly more than 1e-7 of the smaller number *)
Definition low : Z := 1000000000000000.
Definition high : Z := 1000000100000005.

Theorem C44_refuted :
  ~ (forall a b, dicts_ok a -> dicts_ok b -> valid demo VWrite a -> valid demo VWrite b ->
       agree (snd (equals a b false None)) (snd (equals b a false None))).
Proof.
  intro H. assert (D : forall z, dicts_ok (at_rate z)).
  { intro z. unfold at_rate. apply (kdict_verify demo HRaise VWrite). apply put_dicts. exact demo_dicts. }
  specialize (H (at_rate low) (at_rate high) (D low) (D high)).
  assert (V : forall z, z = low \/ z = high -> valid demo VWrite (at_rate z)).
  { intros z Z. apply C11_verify_iff_valid; [exact demo_db_ok|exact demo_rules_tidy|apply D|].
    destruct Z as [-> | ->]; vm_compute; reflexivity. }
  specialize (H (V low (or_introl eq_refl)) (V high (or_intror eq_refl))). clear V D.
  assert (X : (snd (equals (at_rate low) (at_rate high) false None), snd (equals (at_rate high) (at_rate low) false None))
    = (Ok true, Ok false)) by (vm_compute; reflexivity).
  revert H X. generalize (snd (equals (at_rate low) (at_rate high) false None)) (snd (equals (at_rate high) (at_rate low) false None)).
  intros r r' H X. inversion X; subst. discriminate H.
Qed.
Print Assumptions C44_refuted.

Example C44_case :
  snd (equals (at_rate 44100) (at_rate 48000) false None) = Ok false
  /\ snd (equals (at_rate 48000) (at_rate 44100) false None) = Ok false
  /\ ~ close (f_of_Z 44100) (f_of_Z 48000) /\ ~ close (f_of_Z 48000) (f_of_Z 44100).
Proof.
  split; [vm_compute; reflexivity|]. split; [vm_compute; reflexivity|].
  split; intros [H|[[H _]|[_ H]]]; vm_compute in H; discriminate H.
Qed.

(** ** C45 *)

(** [equals] is True exactly if the content is the same: the same names, the
    same types, identical attributes, and the same texts and numbers. Missing:
    an array may equal a scalar, see [C45_refuted]. *)
Theorem C45_same_content_partial :
  forall a b x s verbose, option_of x s -> dicts_ok a -> dicts_ok b -> plain a -> plain b ->
  (x = ExAttr -> all_typed a /\ all_typed b) ->
  (snd (equals a b verbose s) = Ok true <-> same_content x a b).
Proof. intros a b x s verbose. apply equals_true_iff. Qed.
Print Assumptions C45_same_content_partial.

(** Positions of arrays of the same shape are compared one by one, and arrays of
    a different shape are the same only if one of them is a single number. *)
Theorem C45_positions_partial :
  forall a b s verbose k va vb na nb, dicts_ok a -> dicts_ok b -> plain a -> plain b ->
  option_of ExNone s -> snd (equals a b verbose s) = Ok true ->
  (forall r, k <> "_" +++ r) -> typed a k "double" -> dget k (pub a) = Some va -> dget k (pub b) = Some vb ->
  np_array va = Ok na -> np_array vb = Ok nb ->
  typed b k "double"
  /\ (sh_squeeze (a_shape na) = sh_squeeze (a_shape nb) \/ prod (a_shape na) = 1 \/ prod (a_shape nb) = 1)
  /\ (List.length (a_data na) = List.length (a_data nb) ->
      forall i p q, nth_error (a_data na) i = Some p -> nth_error (a_data nb) i = Some q ->
      exists f g, number p f /\ number q g /\ close f g).
Proof.
  intros a b s verbose k va vb na nb DA DB PA PB OX H NU TA GA GB NA NB.
  apply (equals_true_iff a b verbose ExNone s OX DA DB PA PB) in H; [|discriminate].
  assert (C : compared ExNone a k). { split; [apply dget_Some_In; eauto|]. split; [exact NU|]. intros []. }
  destruct (sc_values _ _ _ H k C) as [t [v [w [T1 [T2 [G1 [G2 S]]]]]]].
  rewrite GA in G1. rewrite GB in G2. inversion G1; inversion G2; subst v w.
  destruct TA as [e [TA1 TA2]]. destruct T1 as [e' [T11 T12]]. rewrite TA1 in T11. inversion T11; subst e'.
  rewrite TA2 in T12. subst t. split; [exact T2|].
  destruct S as [b1 b2 ss S _ _| _ S|S _]; try discriminate.
  destruct S as [sa [da [sb [db [C1 [C2 [_ [_ S]]]]]]]].
  assert (LA := content_size _ _ _ (PA k va GA) C1). assert (LB := content_size _ _ _ (PB k vb GB) C2).
  destruct C1 as [xa [X1 [_ [X2 X3]]]]. destruct C2 as [xb [Y1 [_ [Y2 Y3]]]].
  rewrite NA in X1. rewrite NB in Y1. inversion X1; inversion Y1; subst xa xb sa sb da db.
  change (filter (fun n => negb (Nat.eqb n 1)) (a_shape na)) with (sh_squeeze (a_shape na)) in *.
  change (filter (fun n => negb (Nat.eqb n 1)) (a_shape nb)) with (sh_squeeze (a_shape nb)) in *.
  rewrite <- (prod_squeeze (a_shape na)), <- (prod_squeeze (a_shape nb)).
  split; [destruct S as [[-> _]|[[-> _]|[-> _]]]; auto|].
  intros LE i p q P Q.
  assert (L : i < List.length (a_data na)) by (apply nth_error_Some; congruence).
  destruct S as [[_ S]|[[_ S]|[_ S]]].
  - apply (S i p q P). rewrite Nat.mod_small by lia. exact Q.
  - apply (S i p q P). rewrite Nat.mod_small by lia. exact Q.
  - apply (S i q p Q). rewrite Nat.mod_small by lia. exact P.
Qed.
Print Assumptions C45_positions_partial.

(** an object with two measurements and a room temperature *)
Definition with_temperature (v : value) : sofa :=
  m_obj (verify demo HRaise VWrite (put "RoomTemperature" v
    (put "SourceDescriptions" (VArr (Arr KU [2] [EStr "left"; EStr "right"] false))
    (put "Data_IR" (nums [2; 2; 2] [1; 2; 3; 4; 5; 6; 7; 8]%Z) demo_sofa)))).

Theorem C45_refuted :
  ~ (forall a b va vb na nb, dicts_ok a -> dicts_ok b -> valid demo VWrite a -> valid demo VWrite b ->
       snd (equals a b false None) = Ok true ->
       dget "RoomTemperature" (pub a) = Some va -> dget "RoomTemperature" (pub b) = Some vb ->
       np_array va = Ok na -> np_array vb = Ok nb ->
       sh_squeeze (a_shape na) = sh_squeeze (a_shape nb)).
Proof.
  intro H. assert (D : forall v, dicts_ok (with_temperature v)).
  { intro z. apply (kdict_verify demo HRaise VWrite). apply put_dicts, put_dicts, put_dicts. exact demo_dicts. }
  assert (V : forall v, v = zi 290 \/ v = nums [2; 1] [290; 290]%Z -> valid demo VWrite (with_temperature v)).
  { intros z Z. apply C11_verify_iff_valid; [exact demo_db_ok|exact demo_rules_tidy|apply D|].
    destruct Z as [-> | ->]; vm_compute; reflexivity. }
  specialize (H _ _ (zi 290) (nums [2; 1] [290; 290]%Z) (scalar_arr (EInt 290)) (Arr KI [2; 1] [EInt 290; EInt 290] false)
    (D (zi 290)) (D (nums [2; 1] [290; 290]%Z)) (V _ (or_introl eq_refl)) (V _ (or_intror eq_refl))). clear V D.
  assert (X : @nil nat = [2]); [|discriminate X]. apply H; clear H; vm_compute; reflexivity.
Qed.
Print Assumptions C45_refuted.

Example C45_case :
  snd (equals (with_temperature (nums [2; 1] [290; 291]%Z)) (with_temperature (nums [2; 1] [290; 291]%Z)) false None) = Ok true
  /\ snd (equals (with_temperature (nums [2; 1] [290; 291]%Z)) (with_temperature (nums [2; 1] [290; 290]%Z)) false None) = Ok false
  /\ snd (equals (with_temperature (nums [2; 1] [290; 290]%Z)) demo_sofa false None) = Ok false.
Proof. repeat split; vm_compute; reflexivity. Qed.

(** ** C46 *)
Theorem C46_exclude :
  forall a b x s verbose verbose', dicts_ok a -> dicts_ok b -> plain a -> plain b -> option_of x s ->
  snd (equals a b verbose None) = Ok true -> snd (equals a b verbose' s) = Ok true.
Proof.
  intros a b x s verbose verbose' DA DB PA PB OX H.
  apply (equals_true_raw a b verbose ExNone None I (proj1 DA) (proj1 DB)) in H.
  destruct H as [_ [_ [N H]]].
  assert (CN : forall o k, compared x o k -> compared ExNone o k).
  { intros o k [K1 [K2 _]]. split; [exact K1|]. split; [exact K2|]. intros []. }
  assert (CK : forall k, compared ExNone a k -> exists t v w, typed a k t /\ typed b k t /\ dget k (pub a) = Some v
     /\ dget k (pub b) = Some w /\ same_values t v w).
  { intros k K. apply compare_key_iff; [apply PA|apply PB|apply H; exact K]. }
  assert (EX : forall k, compared ExNone a k -> excluded x a k <-> excluded x b k).
  { intros k K. destruct (CK k K) as [t [v [w [[e [T1 T2]] [[e' [T3 T4]] _]]]]].
    destruct x; try reflexivity. cbn. unfold typed. split; intros [f [F1 F2]].
    - exists e'. rewrite T1 in F1. inversion F1; subst. split; [exact T3|congruence].
    - exists e. rewrite T3 in F1. inversion F1; subst. split; [exact T1|congruence]. }
  assert (SE : forall o, (forall k, compared ExNone o k -> exists t, typed o k t) -> exists l, select s o = Ok l).
  { intros o T. unfold select. destruct s as [s|]; [|eauto].
    destruct x; cbn in OX; [destruct OX| | |]; rewrite OX; cbn [String.eqb Ascii.eqb Bool.eqb]; eauto.
    apply rfilter_ok. intros k K. apply public_keys_iff in K.
    assert (K' : compared ExNone o k) by (destruct K; split; [assumption|split; [assumption|intros []]]).
    destruct (T k K') as [t [e [D _]]]. unfold entry_type, dgetE. rewrite D. cbn. eauto. }
  apply (equals_true_raw a b verbose' x s OX (proj1 DA) (proj1 DB)).
  split; [apply SE; intros k K; destruct (CK k K) as [t [v [w [T _]]]]; eauto|].
  split; [apply SE; intros k K; apply N in K; destruct (CK k K) as [t [v [w [_ [T _]]]]]; eauto|].
  split; [|intros k K; apply H, CN, K].
  intro k. split; intro K; assert (K' := CN _ _ K).
  - assert (K2 := proj1 (N k) K'). destruct K as [_ [_ K]]. destruct K2 as [K2 [K3 _]].
    split; [exact K2|]. split; [exact K3|]. rewrite <- (EX k K'). exact K.
  - assert (K2 := proj2 (N k) K'). assert (K4 := EX k K2). destruct K as [_ [_ K]]. destruct K2 as [K2 [K3 _]].
    split; [exact K2|]. split; [exact K3|]. rewrite K4. exact K.
Qed.
Print Assumptions C46_exclude.

(** objects that differ only in excluded entries compare the same *)
Theorem C46_ignored :
  forall x s a b a' b' verbose, option_of x s ->
  dicts_ok a -> dicts_ok b -> dicts_ok a' -> dicts_ok b' ->
  (x = ExAttr -> all_typed a /\ all_typed b /\ all_typed a' /\ all_typed b') ->
  (forall k, compared x a k <-> compared x a' k) -> (forall k, compared x b k <-> compared x b' k) ->
  (forall k, compared x a k -> dget k (pub a) = dget k (pub a') /\ dget k (conv a) = dget k (conv a')) ->
  (forall k, compared x b k -> dget k (pub b) = dget k (pub b') /\ dget k (conv b) = dget k (conv b')) ->
  agree (snd (equals a b verbose s)) (snd (equals a' b' verbose s)).
Proof.
  intros x s a b a' b' verbose OX [DA _] [DB _] [DA' _] [DB' _] AT SA SB VA VB.
  apply (equals_ext x); assumption.
Qed.
Print Assumptions C46_ignored.

Example C46_case :
  snd (equals demo_sofa (put "GLOBAL_Title" (VStr false "other") demo_sofa) false None) = Ok false
  /\ snd (equals demo_sofa (put "GLOBAL_Title" (VStr false "other") demo_sofa) false (Some "GLOBAL")) = Ok true
  /\ snd (equals demo_sofa (put "GLOBAL_Title" (VStr false "other") demo_sofa) false (Some "Attr")) = Ok true
  /\ snd (equals demo_sofa (put "GLOBAL_Title" (VStr false "other") demo_sofa) false (Some "DATE")) = Ok false
  /\ snd (equals demo_sofa (put "GLOBAL_DateCreated" (VStr false "now") demo_sofa) false (Some "DATE")) = Ok true.
Proof. repeat split; vm_compute; reflexivity. Qed.
