(** C88: equals with three objects. *)
From Verif Require Import Base PyStr PyNum NdArray Sofa Verify Utils Demo
  SpecAttr SpecInit SpecVerify SpecUpgrade SpecEquals
  BaseFacts StrFacts AttrFacts OpFacts InitFacts MissingFacts CoreFacts ValidFacts VerifyFacts DictFacts
  DemoFacts EqualsFacts PropVerify PropEquals.
From Coq Require Import ZArith Lia.
Open Scope string_scope.
Open Scope list_scope.

(** the arrays of three values have the same shape, up to singleton dimensions *)
Definition same_shapes (u v w : value) : Prop :=
  forall s1 d1 s2 d2 s3 d3, content_of u s1 d1 -> content_of v s2 d2 -> content_of w s3 d3 -> s1 = s2 /\ s2 = s3.

(** closeness is passed on by the numbers of three values *)
Definition passed_on (u v w : value) : Prop :=
  forall s1 d1 s2 d2 s3 d3 p q r f g h, content_of u s1 d1 -> content_of v s2 d2 -> content_of w s3 d3 ->
  In p d1 -> In q d2 -> In r d3 -> number p f -> number q g -> number r h -> close f g -> close g h -> close f h.

Lemma content_fun v s d s' d' : content_of v s d -> content_of v s' d' -> s = s' /\ d = d'.
Proof. intros [a [A [_ [-> ->]]]] [b [B [_ [-> ->]]]]. rewrite A in B. injection B as <-. auto. Qed.
Lemma number_fun p x y : number p x -> number p y -> x = y.
Proof. intros H H'. inversion H; subst; inversion H'; subst; reflexivity. Qed.

Lemma repeated_trans (R R' Q : elt -> elt -> Prop) d1 d2 d3 :
  List.length d1 = List.length d2 -> List.length d2 = List.length d3 ->
  (forall x y z, In x d1 -> In y d2 -> In z d3 -> R x y -> R' y z -> Q x z) ->
  repeated R d1 d2 -> repeated R' d2 d3 -> repeated Q d1 d3.
Proof.
  intros L1 L2 T H1 H2 i x z X Z. assert (LT : i < List.length d1) by (apply nth_error_Some; congruence).
  destruct (nth_error d2 i) as [y|] eqn:Y; [|apply nth_error_None in Y; lia].
  rewrite Nat.mod_small in Z by lia.
  apply (T x y z); eauto using nth_error_In.
  - apply (H1 i x y X). rewrite Nat.mod_small by lia. exact Y.
  - apply (H2 i y z Y). rewrite Nat.mod_small by lia. exact Z.
Qed.

Lemma repeated_flip (R : elt -> elt -> Prop) d d' : List.length d = List.length d' -> repeated (fun q p => R p q) d' d -> repeated R d d'.
Proof.
  intros L H i p q P Q. assert (LT : i < List.length d) by (apply nth_error_Some; congruence).
  rewrite Nat.mod_small in Q by lia. apply (H i q p Q). rewrite Nat.mod_small by lia. exact P.
Qed.

Lemma same_numbers_trans u v w : plain_value u -> plain_value v -> plain_value w -> same_shapes u v w -> passed_on u v w ->
  same_numbers u v -> same_numbers v w -> same_numbers u w.
Proof.
  intros PU PV PW SH PA [s1 [d1 [s2 [d2 [C1 [C2 [N1 [N2 H1]]]]]]]] [s2' [d2' [s3 [d3 [C2' [C3 [_ [N3 H2]]]]]]]].
  destruct (content_fun _ _ _ _ _ C2 C2') as [<- <-]. destruct (SH _ _ _ _ _ _ C1 C2 C3) as [-> ->].
  assert (L1 : List.length d1 = List.length d2) by (rewrite (content_size u _ d1 PU C1), (content_size v _ d2 PV C2); reflexivity).
  assert (L2 : List.length d2 = List.length d3) by (rewrite (content_size v _ d2 PV C2), (content_size w _ d3 PW C3); reflexivity).
  assert (R1 : repeated close_elts d1 d2) by (destruct H1 as [[_ R]|[[_ R]|[_ R]]]; [exact R|exact R|apply repeated_flip; assumption]).
  assert (R2 : repeated close_elts d2 d3) by (destruct H2 as [[_ R]|[[_ R]|[_ R]]]; [exact R|exact R|apply repeated_flip; assumption]).
  exists s3, d1, s3, d3. repeat (split; [assumption|]). left. split; [reflexivity|].
  refine (repeated_trans _ _ _ _ _ _ L1 L2 _ R1 R2).
  intros x y z X Y Z [f [g [F [G C]]]] [g' [h [G' [H C']]]]. rewrite (number_fun _ _ _ G' G) in C'.
  exists f, h. repeat (split; [assumption|]). eapply (PA _ _ _ _ _ _ x y z f g h C1 C2 C3); assumption.
Qed.

Lemma same_text_trans p q r : same_text p q -> same_text q r -> same_text p r.
Proof.
  intros [s [t [m [n [H1 [H2 H3]]]]]] [t' [u [m' [n' [H4 [H5 H6]]]]]]. rewrite (text_fun _ _ _ H4 H2) in H6.
  assert (A : strip_nul s = strip_nul t) by (apply strip_nul_eq; eauto).
  assert (B : strip_nul t = strip_nul u) by (apply strip_nul_eq; eauto).
  assert (C : strip_nul s = strip_nul u) by congruence. apply strip_nul_eq in C. destruct C as [i [j C]]. exists s, u, i, j. auto.
Qed.

Lemma same_texts_trans u v w : plain_value u -> plain_value v -> plain_value w -> same_shapes u v w ->
  same_texts u v -> same_texts v w -> same_texts u w.
Proof.
  intros PU PV PW SH [s1 [d1 [s2 [d2 [C1 [C2 [N1 [N2 H1]]]]]]]] [s2' [d2' [s3 [d3 [C2' [C3 [_ [N3 H2]]]]]]]].
  destruct (content_fun _ _ _ _ _ C2 C2') as [<- <-]. destruct (SH _ _ _ _ _ _ C1 C2 C3) as [-> ->].
  assert (L1 : List.length d1 = List.length d2) by (rewrite (content_size u _ d1 PU C1), (content_size v _ d2 PV C2); reflexivity).
  assert (L2 : List.length d2 = List.length d3) by (rewrite (content_size v _ d2 PV C2), (content_size w _ d3 PW C3); reflexivity).
  assert (R1 : repeated same_text d1 d2) by (destruct H1 as [[_ [_ R]]|[_ [_ R]]]; [exact R|apply repeated_flip; assumption]).
  assert (R2 : repeated same_text d2 d3) by (destruct H2 as [[_ [_ R]]|[_ [_ R]]]; [exact R|apply repeated_flip; assumption]).
  exists s3, d1, s3, d3. repeat (split; [assumption|]). left. exists []. split; [reflexivity|].
  refine (repeated_trans _ _ _ _ _ _ L1 L2 _ R1 R2). intros x y z _ _ _. apply same_text_trans.
Qed.

Lemma typed_fun o k t t' : typed o k t -> typed o k t' -> t = t'.
Proof. intros [e [H <-]] [e' [H' <-]]. congruence. Qed.

(** If a equals b and b equals c then a equals c, for arrays of the same shape
    and as long as the differences do not add up. Missing: [C88_refuted]. *)
Theorem C88_transitive_partial :
  forall a b c x s v1 v2 v3, option_of x s -> dicts_ok a -> dicts_ok b -> dicts_ok c -> plain a -> plain b -> plain c ->
  (x = ExAttr -> all_typed a /\ all_typed b /\ all_typed c) ->
  (forall k u v w, compared x a k -> dget k (pub a) = Some u -> dget k (pub b) = Some v -> dget k (pub c) = Some w ->
     same_shapes u v w /\ (typed a k "double" -> passed_on u v w)) ->
  snd (equals a b v1 s) = Ok true -> snd (equals b c v2 s) = Ok true -> snd (equals a c v3 s) = Ok true.
Proof.
  intros a b c x s v1 v2 v3 OX DA DB DC PA PB PC AT H E1 E2.
  apply (equals_true_iff a b v1 x s OX DA DB PA PB) in E1; [|intro Q; destruct (AT Q) as [? [? ?]]; auto].
  apply (equals_true_iff b c v2 x s OX DB DC PB PC) in E2; [|intro Q; destruct (AT Q) as [? [? ?]]; auto].
  apply (equals_true_iff a c v3 x s OX DA DC PA PC); [intro Q; destruct (AT Q) as [? [? ?]]; auto|].
  split.
  - intro k. rewrite (sc_names _ _ _ E1), (sc_names _ _ _ E2). reflexivity.
  - intros k K. destruct (sc_values _ _ _ E1 k K) as [t [u [v [T1 [T2 [G1 [G2 S1]]]]]]].
    apply (sc_names _ _ _ E1) in K as K'.
    destruct (sc_values _ _ _ E2 k K') as [t' [v' [w [T2' [T3 [G2' [G3 S2]]]]]]].
    rewrite G2 in G2'. injection G2' as <-. rewrite (typed_fun _ _ _ _ T2' T2) in *. clear T2' t'.
    exists t, u, w. repeat (split; [assumption|]). destruct (H k u v w K G1 G2 G3) as [SH PO].
    destruct S1 as [b1 b1' s1 Q -> ->|Q N|Q N].
    + destruct S2 as [b2 b2' s2 _ Q2 ->|Q2 _|Q2 _]; [|congruence|congruence]. injection Q2 as _ <-. eapply sv_attr; eauto.
    + destruct S2 as [b2 b2' s2 Q2 _ _|_ N2|Q2 _]; [congruence| |congruence]. apply sv_double; [exact Q|].
      apply (same_numbers_trans u v w); eauto. apply PO. rewrite <- Q. exact T1.
    + destruct S2 as [b2 b2' s2 Q2 _ _|Q2 _|_ N2]; [congruence|congruence|]. apply sv_string; [exact Q|].
      apply (same_texts_trans u v w); eauto.
Qed.
Print Assumptions C88_transitive_partial.

(** Numbers that are identical are passed on: what equals an identical copy of
    the numbers equals the numbers. *)
Lemma passed_identical u v w :
  (forall s1 d1 s2 d2 p q f g, content_of u s1 d1 -> content_of v s2 d2 -> In p d1 -> In q d2 -> number p f -> number q g ->
     close f g -> f = g) -> passed_on u v w.
Proof. intros H s1 d1 s2 d2 s3 d3 p q r f g h C1 C2 C3 P Q R F G N C C'. rewrite (H _ _ _ _ p q f g C1 C2 P Q F G C). exact C'. Qed.

(** ** Cases *)
Definition middle : Z := 1000000099999995.
Definition far : Z := 1000000199999990.

Theorem C88_refuted :
  ~ (forall a b c, dicts_ok a -> dicts_ok b -> dicts_ok c -> valid demo VWrite a -> valid demo VWrite b -> valid demo VWrite c ->
       snd (equals a b false None) = Ok true -> snd (equals b c false None) = Ok true -> snd (equals a c false None) = Ok true).
Proof.
  intro H. assert (D : forall z, dicts_ok (at_rate z)).
  { intro z. unfold at_rate. apply (kdict_verify demo HRaise VWrite). apply put_dicts. exact demo_dicts. }
  assert (V : forall z, z = low \/ z = middle \/ z = far -> valid demo VWrite (at_rate z)).
  { intros z Z. apply C11_verify_iff_valid; [exact demo_db_ok|exact demo_rules_tidy|apply D|].
    destruct Z as [-> | [-> | ->]]; vm_compute; reflexivity. }
  specialize (H (at_rate low) (at_rate middle) (at_rate far) (D low) (D middle) (D far) (V _ (or_introl eq_refl))
    (V _ (or_intror (or_introl eq_refl))) (V _ (or_intror (or_intror eq_refl)))). clear V D.
  assert (X1 : snd (equals (at_rate low) (at_rate middle) false None) = Ok true) by (vm_compute; reflexivity).
  assert (X2 : snd (equals (at_rate middle) (at_rate far) false None) = Ok true) by (vm_compute; reflexivity).
  assert (X3 : snd (equals (at_rate low) (at_rate far) false None) = Ok false) by (vm_compute; reflexivity).
  rewrite (H X1 X2) in X3. discriminate X3.
Qed.
Print Assumptions C88_refuted.

(** a chain of three objects, one array has a singleton dimension more *)
Example C88_case :
  let a := with_temperature (nums [2; 1] [290; 291]%Z) in
  let b := with_temperature (VArr (Arr KF [2] [EFlt (f_of_Z 290); EFlt (f_of_Z 291)] false)) in
  let c := with_temperature (nums [2] [290; 291]%Z) in
  snd (equals a b false None) = Ok true /\ snd (equals b c false None) = Ok true /\ snd (equals a c false None) = Ok true
  /\ same_shapes (nums [2; 1] [290; 291]%Z) (VArr (Arr KF [2] [EFlt (f_of_Z 290); EFlt (f_of_Z 291)] false)) (nums [2] [290; 291]%Z)
  /\ passed_on (nums [2; 1] [290; 291]%Z) (VArr (Arr KF [2] [EFlt (f_of_Z 290); EFlt (f_of_Z 291)] false)) (nums [2] [290; 291]%Z).
Proof.
  cbv zeta. split; [vm_compute; reflexivity|]. split; [vm_compute; reflexivity|]. split; [vm_compute; reflexivity|]. split.
  - intros s1 d1 s2 d2 s3 d3 [a [A [_ [-> _]]]] [b [B [_ [-> _]]]] [c [C [_ [-> _]]]].
    injection A as <-. injection B as <-. injection C as <-. split; reflexivity.
  - apply passed_identical. intros s1 d1 s2 d2 p q f g [a [A [_ [_ ->]]]] [b [B [_ [_ ->]]]] P Q F G C.
    injection A as <-. injection B as <-. cbn [a_data In] in P, Q.
    destruct P as [<-|[<-|[]]]; destruct Q as [<-|[<-|[]]]; inversion F; inversion G; subst; try reflexivity; exfalso;
      destruct C as [C|[[C _]|[_ C]]]; vm_compute in C; discriminate C.
Qed.
