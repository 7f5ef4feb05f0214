(** Theorems about objects that differ in their numbers only (C72). *)
From Verif Require Import Base PyStr PyNum NdArray Sofa Verify Demo SpecAttr SpecInit SpecVerify SpecOutline
  BaseFacts InitFacts AttrFacts DimFacts VerifyFacts DemoFacts OrderFacts OutlineFacts PropVerify PropOrder.
From Coq Require Import ZArith.
Open Scope string_scope.
Open Scope list_scope.
Open Scope nat_scope.

(** ** C72 *)

(** Objects with the same names, texts and shapes are both accepted or both
    rejected, whatever the numbers are. *)
Lemma similar_verified E m o o' : db_ok E -> rules_tidy E -> dicts_ok o -> similar_outline o o' -> choices_kept o o' E ->
  is_ok (m_res (verify E HRaise m o)) = is_ok (m_res (verify E HRaise m o')).
Proof.
  intros DB RT DO OL CK. apply Bool.eq_true_iff_eq.
  rewrite (verify_iff_valid E m o DB RT DO), (verify_iff_valid E m o' DB RT (ol_dicts o o' OL DO)).
  split; intros [c [v [cv V]]]; exists c, v, cv.
  - apply (ol_valid cv o o' OL E m c v CK V).
  - apply (ol_valid cv o' o (similar_outline_sym o o' OL) E m c v); [|exact V].
    intros k r sp x y R SP X Y. apply alike_sym. exact (CK k r sp y x R SP Y X).
Qed.
Theorem C72_numbers_do_not_matter :
  forall E m o o', db_ok E -> rules_tidy E -> dicts_ok o -> same_outline o o' ->
  is_ok (m_res (verify E HRaise m o)) = is_ok (m_res (verify E HRaise m o')).
Proof.
  intros E m o o' DB RT DO OL. apply similar_verified; [exact DB|exact RT|exact DO|apply outline_similar; exact OL|].
  intros k r sp v w _ _ G W. apply (ol_values _ _ OL _ v w G W).
Qed.
Print Assumptions C72_numbers_do_not_matter.

(** A number can also be an array with axes of length one, and the other way round, unless
    a rule uses the entry to choose further rules. *)
Theorem C72_single_numbers :
  forall E m o o', db_ok E -> rules_tidy E -> dicts_ok o -> similar_outline o o' ->
  (forall k r sp v w, In (k, r) (rules E) -> r_specific r = Some sp ->
     dget (python_name k) (pub o) = Some v -> dget (python_name k) (pub o') = Some w -> alike v w) ->
  is_ok (m_res (verify E HRaise m o)) = is_ok (m_res (verify E HRaise m o')).
Proof. intros E m o o' DB RT DO OL CK. apply similar_verified; assumption. Qed.
Print Assumptions C72_single_numbers.

(** and accepted objects have the same dimensions *)
Theorem C72_same_dimensions :
  forall E o o' d, db_ok E -> rules_tidy E -> dicts_ok o -> same_outline o o' ->
  is_ok (m_res (verify E HRaise VWrite o)) = true ->
  forall n, m_res (get_dimension E d o) = Ok n <-> m_res (get_dimension E d o') = Ok n.
Proof.
  intros E o o' d DB RT DO OL OK n.
  assert (SL := outline_similar o o' OL). assert (DO' := ol_dicts o o' SL DO). assert (SL' := similar_outline_sym o o' SL).
  assert (OK' : is_ok (m_res (verify E HRaise VWrite o')) = true)
    by (rewrite <- (C72_numbers_do_not_matter E VWrite o o' DB RT DO OL); exact OK).
  destruct (accepted_dimension E o DB RT DO OK) as [cv [C S1]].
  destruct (accepted_dimension E o' DB RT DO' OK') as [cv' [C' S2]].
  assert (CC : convention_of E o cv').
  { destruct C' as [b [c [w [ct [A [B X]]]]]]. exists b, c, w, ct. rewrite <- (ol_version _ _ OL).
    destruct (ol_get o' o SL' _ _ A) as [u [U AL]]. rewrite (similar_str _ _ b c AL eq_refl) in U. auto. }
  assert (cv' = cv) by (apply (convention_unique E o cv cv' DB C CC)). subst cv'.
  rewrite S1, S2. split; [apply (ol_size cv o o' SL)|apply (ol_size cv o' o SL')].
Qed.
Print Assumptions C72_same_dimensions.

(** Assigning other numbers of the same shape keeps an accepted object accepted
    and a rejected object rejected. *)
Theorem C72_assigning_numbers :
  forall E m o o' ev k u v w, db_ok E -> rules_tidy E -> dicts_ok o ->
  k <> "protected" -> k <> "GLOBAL_SOFAConventionsVersion" ->
  set_attr k u o = (o', ev, Ok tt) -> dget k (pub o) = Some v -> dget k (pub o') = Some w -> alike v w ->
  is_ok (m_res (verify E HRaise m o)) = is_ok (m_res (verify E HRaise m o')).
Proof.
  intros E m o o' ev k u v w DB RT DO KP KV H G W A.
  destruct (set_attr_Ok k u o o' ev tt H KP) as [w' [_ [-> _]]]. cbn [pub with_pub] in W.
  rewrite dget_dset_same in W. injection W as ->.
  apply C72_numbers_do_not_matter; [exact DB|exact RT|exact DO|]. split.
  - cbn [pub with_pub]. apply dkeys_dset_mem. apply dget_Some_In. exists v. exact G.
  - intros k' v' u' G' U. cbn [pub with_pub] in U. destruct (String.eqb_spec k' k) as [->|N].
    + rewrite dget_dset_same in U. rewrite G in G'. injection G' as <-. injection U as <-. exact A.
    + rewrite dget_dset_other in U by exact N. rewrite G' in U. injection U as <-. apply alike_same.
  - cbn [pub with_pub]. apply dget_dset_other. intro Q. apply KV. symmetry. exact Q.
  - reflexivity.
Qed.
Print Assumptions C72_assigning_numbers.

(** other impulse responses, as floats instead of integers and with a further axis *)
Example C72_case :
  let u := VArr (Arr KF [1; 2; 2; 1] (map (fun z => EFlt (f_of_Z z)) [3; 4; 5; 6]%Z) false) in
  let r := set_attr "Data_IR" u demo_sofa in
  exists a b, dicts_ok demo_sofa /\ m_res r = Ok tt
  /\ dget "Data_IR" (pub demo_sofa) = Some (VArr a) /\ dget "Data_IR" (pub (m_obj r)) = Some (VArr b)
  /\ alike (VArr a) (VArr b) /\ a_data a <> a_data b
  /\ m_res (verify demo HRaise VWrite demo_sofa) = Ok None /\ m_res (verify demo HRaise VWrite (m_obj r)) = Ok None.
Proof.
  cbv zeta. eexists. eexists. split; [exact demo_dicts|]. split; [vm_compute; reflexivity|].
  split; [vm_compute; reflexivity|]. split; [vm_compute; reflexivity|].
  split.
  { apply alike_arrays; [left|right|apply (axes_ones [1; 2; 2] 0 1); cbn [List.length]; repeat constructor]; (split; [reflexivity|]); cbn [a_data In]; intros x X.
    - repeat (destruct X as [<-|X]; [eexists; reflexivity|]). destruct X.
    - repeat (destruct X as [<-|X]; [eexists; reflexivity|]). destruct X. }
  split; [intro Q; discriminate Q|]. split; vm_compute; reflexivity.
Qed.
