(** Equal objects are equally valid (C110). *)
From Coq Require Import ZArith Lia.
From Verif Require Import Base PyStr PyNum NdArray Sofa Verify Utils Demo
  SpecAttr SpecInit SpecVerify SpecUpgrade SpecOutline SpecEquals SpecReach
  BaseFacts StrFacts InitFacts CoreFacts ValidFacts DictFacts DemoFacts EqualsFacts IoFacts RoundFacts ReachFacts
  PropVerify PropEquals PropOutline PropIo PropReach.
Open Scope string_scope.
Open Scope list_scope.
Open Scope nat_scope.

(** ** Statement *)

(** a text that does not end with a NUL *)
Definition no_nul (s : string) : Prop := forall r, s <> r +++ nuls 1.

(** the same kind of value with the same axes
    (up to axes of length one at the end, [same_axes]): two texts, two numbers, two arrays of
    numbers, or two arrays of texts; nothing is said about the numbers and texts *)
Inductive same_form : value -> value -> Prop :=
| sf_text s t : no_nul s -> no_nul t -> same_form (VStr false s) (VStr false t)
| sf_number x y : numeric_scalar x -> numeric_scalar y -> same_form (VScal x) (VScal y)
| sf_numbers a b : numeric a -> numeric b -> same_axes (a_shape a) (a_shape b) -> same_form (VArr a) (VArr b)
| sf_texts sh l l' : List.length l = prod sh -> List.length l' = prod sh ->
    Forall no_nul l -> Forall no_nul l' ->
    same_form (VArr (Arr KU sh (map EStr l) false)) (VArr (Arr KU sh (map EStr l') false)).


(** ** Proofs *)
Lemma no_nul_same s t : no_nul s -> no_nul t -> same_text (EStr s) (EStr t) -> s = t.
Proof.
  intros S T [s' [t' [m [n [H1 [H2 Q]]]]]]. inversion H1; subst s'. inversion H2; subst t'.
  rewrite <- (strip_nul_id s S), <- (strip_nul_id t T). apply strip_nul_eq. eauto.
Qed.

Lemma nth_error_same {A} (l l' : list A) : (forall i, nth_error l i = nth_error l' i) -> l = l'.
Proof.
  revert l'. induction l as [|y l IH]; intros [|y' l'] H; [reflexivity|discriminate (H 0)|discriminate (H 0)|].
  assert (H0 := H 0). cbn in H0. injection H0 as ->. f_equal. apply IH. intro i. apply (H (S i)).
Qed.

Lemma text_form v w : same_form v w -> forall t, same_values t v w -> alike v w.
Proof.
  intros F t S. destruct F as [s u N1 N2|p q P Q|a b A B SH|sh l l' L1 L2 F1 F2].
  - destruct S as [b b' r _ E1 E2|_ D|_ D].
    + injection E1 as _ ->. injection E2 as _ ->. apply alike_same.
    + exfalso. destruct D as [sh [d [sh' [d' [[a [A [_ [_ ->]]]] [_ [NU _]]]]]]].
      cbn in A. injection A as <-. destruct (NU (EStr s)) as [y Y]; [left; reflexivity|]. inversion Y.
    + destruct D as [sh [d [sh' [d' [[a [A [_ [_ ->]]]] [[a' [A' [_ [_ ->]]]] [_ [_ R]]]]]]]].
      cbn in A, A'. injection A as <-. injection A' as <-.
      assert (ST : same_text (EStr s) (EStr u)).
      { destruct R as [[pre [_ R]]|[pre [_ R]]]; apply (R 0); reflexivity. }
      rewrite (no_nul_same s u N1 N2 ST). apply alike_same.
  - apply alike_scalars; assumption.
  - apply alike_arrays; assumption.
  - destruct S as [b b' r _ E1 E2|_ D|_ D].
    + discriminate E1.
    + destruct D as [s [d [s' [d' [[a [A [_ [_ ->]]]] [_ [NU _]]]]]]].
      cbn in A. injection A as <-. cbn [a_data] in NU. destruct l as [|y l].
      * destruct l' as [|y' l']; [apply alike_same|]. exfalso. rewrite <- L1 in L2. discriminate L2.
      * destruct (NU (EStr y)) as [z Z]; [left; reflexivity|]. inversion Z.
    + destruct D as [s [d [s' [d' [[a [A [_ [_ ->]]]] [[a' [A' [_ [_ ->]]]] [_ [_ R]]]]]]]].
      cbn in A, A'. injection A as <-. injection A' as <-. cbn [a_data] in R.
      assert (LL : List.length l = List.length l') by congruence.
      assert (EQ : l = l'); [|subst l'; apply alike_same].
      apply nth_error_same. intros i.
      destruct (nth_error l i) as [y|] eqn:Y.
      * assert (I : i < List.length l) by (apply nth_error_Some; congruence).
        destruct (nth_error l' i) as [y'|] eqn:Y'; [|apply nth_error_None in Y'; lia].
        assert (ST : same_text (EStr y) (EStr y')).
        { destruct R as [[pre [_ R]]|[pre [_ R]]]; apply (R i); rewrite ?map_length, ?Nat.mod_small by lia;
            apply map_nth_error; assumption. }
        f_equal. apply no_nul_same; [| |exact ST].
        -- apply (proj1 (Forall_forall _ _) F1 y). apply (nth_error_In _ _ Y).
        -- apply (proj1 (Forall_forall _ _) F2 y'). apply (nth_error_In _ _ Y').
      * symmetry. apply nth_error_None. apply nth_error_None in Y. lia.
Qed.

(** Objects that [equals] calls identical and whose values have the same form are both
    valid or both invalid. Missing: [equals] ignores all axes of length one, see
    [C110_refuted]. *)
Theorem C110_equally_valid_partial :
  forall E m a b verbose, db_ok E -> rules_tidy E -> sound a -> sound b ->
  snd (equals a b verbose None) = Ok true ->
  dkeys (pub b) = dkeys (pub a) -> custom b = custom a ->
  (exists t, dget "GLOBAL_SOFAConventionsVersion" (pub a) = Some (VStr false t)) ->
  (forall k v w, dget k (pub a) = Some v -> dget k (pub b) = Some w -> same_form v w) ->
  is_ok (m_res (verify E HRaise m a)) = is_ok (m_res (verify E HRaise m b)).
Proof.
  intros E m a b verbose DB RT SA SB EQ K C [ver VER] F.
  destruct SA as [DA PA NA _]. destruct SB as [DB' PB NB _].
  apply (C45_same_content_partial a b ExNone None verbose I DA DB' PA PB) in EQ; [|discriminate].
  assert (V : forall k v w, dget k (pub a) = Some v -> dget k (pub b) = Some w -> exists t, same_values t v w).
  { intros k v w G H. assert (CO : contained a k) by (apply dget_Some_In; eauto).
    destruct (sc_values _ _ _ EQ k) as [t [v' [w' [_ [_ [G' [H' S]]]]]]].
    - split; [exact CO|]. split; [|intros []]. intros r ->. destruct (NA _ CO) as [X _].
      unfold is_private in X. rewrite (proj2 (startswith_iff "_" ("_" +++ r))) in X by eauto. discriminate X.
    - exists t. congruence. }
  assert (AL : forall k v w, dget k (pub a) = Some v -> dget k (pub b) = Some w -> alike v w).
  { intros k v w G H. destruct (V k v w G H) as [t S]. apply (text_form v w (F k v w G H) t S). }
  apply C72_numbers_do_not_matter; [exact DB|exact RT|exact DA|]. split; [exact K|exact AL| |exact C].
  assert (I' : In "GLOBAL_SOFAConventionsVersion" (dkeys (pub b))) by (rewrite K; apply dget_Some_In; eauto).
  apply dget_Some_In in I'. destruct I' as [w W]. assert (A := AL _ _ _ VER W). rewrite VER, W. inversion A. reflexivity.
Qed.
Print Assumptions C110_equally_valid_partial.

Theorem C110_refuted :
  let b := put "Data_IR" (nums [2; 2] [1; 0; 0; 1]%Z) demo_sofa in
  snd (equals demo_sofa b true None) = Ok true /\ fst (equals demo_sofa b true None) = []
  /\ m_res (verify demo HRaise VWrite demo_sofa) = Ok None
  /\ exists t, m_res (verify demo HRaise VWrite b) = Err (Exn EValueError t).
Proof.
  cbv zeta. split; [vm_compute; reflexivity|]. split; [vm_compute; reflexivity|].
  split; [vm_compute; reflexivity|]. eexists. vm_compute. reflexivity.
Qed.
Print Assumptions C110_refuted.

(** *** Case: the same impulse responses as floats and with a further axis *)
Definition intb (x : elt) : bool := match x with EInt _ => true | _ => false end.
Definition formb (v : value) : bool :=
  match v with
  | VStr false s => negb (endswith (nuls 1) s)
  | VScal x => intb x
  | VArr (Arr KI _ l _) => forallb intb l
  | VArr (Arr KU sh [EStr s] false) => Nat.eqb (prod sh) 1 && negb (endswith (nuls 1) s)
  | _ => false
  end.

Lemma no_nulb s : negb (endswith (nuls 1) s) = true -> no_nul s.
Proof.
  intros H r ->. rewrite (proj2 (endswith_iff (nuls 1) (r +++ nuls 1))) in H by eauto. discriminate H.
Qed.

Lemma formb_ok v : formb v = true -> same_form v v.
Proof.
  intro H. destruct v as [[] s|x|[[] sh l mk]|l]; try discriminate H.
  - apply sf_text; apply no_nulb; exact H.
  - destruct x; try discriminate H. apply sf_number; left; eauto.
  - apply sf_numbers; [| |apply axes_same]; left; (split; [reflexivity|]); intros x X;
      pose proof (proj1 (forallb_forall _ _) H x X) as IX; destruct x; try discriminate IX; eauto.
  - destruct l as [|[z|f|re im|b0|s|s|] [|y l]]; try discriminate H. destruct mk; try discriminate H.
    cbn [formb] in H. apply andb_true_iff in H. destruct H as [H1 H2]. apply Nat.eqb_eq in H1.
    apply (sf_texts sh [s] [s]); try (symmetry; exact H1); (constructor; [apply no_nulb; exact H2|constructor]).
Qed.

Lemma put_sound k v o : sound o -> contained o k -> plain_value v -> sound (put k v o).
Proof.
  intros [D P N C] K V. split; [apply put_dicts; exact D| | |exact C].
  - intros j w. unfold put. cbn [pub with_pub]. destruct (String.eqb_spec j k) as [->|NE].
    + rewrite dget_dset_same. intro Q. injection Q as <-. exact V.
    + rewrite dget_dset_other by exact NE. apply P.
  - intros j J. apply N. unfold contained, put in *. cbn [pub with_pub] in J.
    rewrite (dkeys_dset_mem k v (pub o) K) in J. exact J.
Qed.

Lemma put_rest k v o : contained o k -> dkeys (pub (put k v o)) = dkeys (pub o) /\ custom (put k v o) = custom o.
Proof. intro K. split; [apply (dkeys_dset_mem k v (pub o) K)|reflexivity]. Qed.

Lemma put_same k v o : dget k (pub (put k v o)) = Some v.
Proof. apply dget_dset_same. Qed.
Lemma put_other k v o j : j <> k -> dget j (pub (put k v o)) = dget j (pub o).
Proof. apply dget_dset_other. Qed.

Lemma demo_sofa_sound : sound demo_sofa.
Proof.
  assert (W : world demo disk [demo_sofa]).
  { unfold demo_sofa. destruct (sofa_init demo "SimpleFreeFieldHRIR" false "latest" VAuto) as [ev [o|e]] eqn:I.
    - refine (wo_create demo disk [] _ _ _ _ _ _ _ I). apply wo_start. exact disk_ok.
    - exfalso. assert (X : is_ok (snd (sofa_init demo "SimpleFreeFieldHRIR" false "latest" VAuto)) = true) by (vm_compute; reflexivity).
      rewrite I in X. discriminate X. }
  apply (proj2 (C75_programs demo disk _ demo_defaults W)). left. reflexivity.
Qed.

Definition floats : value := VArr (Arr KF [1; 2; 2; 1] (map (fun z => EFlt (f_of_Z z)) [1; 0; 0; 1]%Z) false).
Example C110_case :
  let b := put "Data_IR" floats demo_sofa in
  sound demo_sofa /\ sound b /\ snd (equals demo_sofa b true None) = Ok true
  /\ dkeys (pub b) = dkeys (pub demo_sofa) /\ custom b = custom demo_sofa
  /\ (exists t, dget "GLOBAL_SOFAConventionsVersion" (pub demo_sofa) = Some (VStr false t))
  /\ (forall k v w, dget k (pub demo_sofa) = Some v -> dget k (pub b) = Some w -> same_form v w)
  /\ is_ok (m_res (verify demo HRaise VWrite b)) = true.
Proof.
  cbv zeta. assert (K : contained demo_sofa "Data_IR") by (apply dget_Some_In; eexists; vm_compute; reflexivity).
  split; [exact demo_sofa_sound|]. split; [apply put_sound; [exact demo_sofa_sound|exact K|vm_compute; reflexivity]|].
  split; [vm_compute; reflexivity|]. split; [apply (proj1 (put_rest _ floats _ K))|].
  split; [apply (proj2 (put_rest _ floats _ K))|]. split; [eexists; vm_compute; reflexivity|]. split; [|vm_compute; reflexivity].
  intros k v w G H. destruct (String.eqb_spec k "Data_IR") as [->|NE].
  - rewrite put_same in H. injection H as <-.
    assert (X : dget "Data_IR" (pub demo_sofa) = Some (nums [1; 2; 2] [1; 0; 0; 1]%Z)) by (vm_compute; reflexivity).
    rewrite X in G. injection G as <-. apply sf_numbers; [left|right|apply (axes_ones [1; 2; 2] 0 1); cbn [List.length]; repeat constructor]; (split; [reflexivity|]); cbn [a_data In map];
      intros x Y; repeat (destruct Y as [<-|Y]; [eexists; reflexivity|]); destruct Y.
  - rewrite (put_other _ _ _ _ NE) in H. rewrite G in H. injection H as <-. apply formb_ok.
    assert (A : forallb (fun p => formb (snd p)) (pub demo_sofa) = true) by (vm_compute; reflexivity).
    apply (proj1 (forallb_forall _ _) A (k, v)). apply (dget_In _ _ _ G).
Qed.
