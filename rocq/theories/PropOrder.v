(** Theorems about the order of the data (C71). *)
From Verif Require Import Base PyStr PyNum NdArray Sofa Verify Demo SpecAttr SpecInit SpecVerify SpecOrder
  BaseFacts CoreFacts InitFacts ValidFacts DimFacts VerifyFacts OrderFacts PropAttr PropVerify DemoFacts PropIo.
From Coq Require Import ZArith Lia Permutation.
Open Scope string_scope.
Open Scope list_scope.
Open Scope nat_scope.

(** ** C71 *)

(** Two objects with the same data in different order are both accepted or both
    rejected, if every dimension has its size from one variable or from
    variables that are compared with the size they state. Missing: other
    variables, see [C71_refuted]. *)
Theorem C71_order_partial :
  forall E m o o', db_ok E -> rules_tidy E -> dicts_ok o -> reordered o o' ->
  (forall cv, convention_of E o cv -> orderly cv o) ->
  is_ok (m_res (verify E HRaise m o)) = is_ok (m_res (verify E HRaise m o')).
Proof.
  intros E m o o' DB RT DO RE OR. destruct (re_sym o o' DO RE) as [DO' RE'].
  assert (OR' : forall cv, convention_of E o' cv -> orderly cv o').
  { intros cv C. apply (re_orderly cv o o' DO RE). apply OR. apply (reordered_convention E o o' cv DO RE C). }
  apply Bool.eq_true_iff_eq.
  rewrite (verify_iff_valid E m o DB RT DO), (verify_iff_valid E m o' DB RT DO'). split.
  - apply (reordered_valid E m o o' DO RE OR).
  - apply (reordered_valid E m o' o DO' RE' OR').
Qed.
Print Assumptions C71_order_partial.

Lemma accepted_dimension E o : db_ok E -> rules_tidy E -> dicts_ok o ->
  is_ok (m_res (verify E HRaise VWrite o)) = true ->
  exists cv, convention_of E o cv /\ forall d n, m_res (get_dimension E d o) = Ok n <-> size cv o d n.
Proof.
  intros DB RT DO OK.
  assert (VA := proj1 (verify_iff_valid E VWrite o DB RT DO) OK). destruct VA as [c [v [cv VA]]].
  assert (CV := valid_convention E VWrite o c v cv VA).
  assert (CO : complete E o).
  { intros cv' k e C' D M. rewrite (convention_unique E o cv cv' DB CV C') in D.
    apply (va_mandatory _ _ _ _ _ _ VA k e D M). }
  exists cv. split; [exact CV|].
  destruct (C13_modes_agree_partial E VWrite o DB DO CO) as [[x [o' [ev [H _]]]]|[o' [ev [e [w [H _]]]]]].
  { rewrite (H HRaise) in OK by discriminate. discriminate OK. }
  assert (HR := H HRaise). rewrite HR in OK by discriminate. specialize (HR ltac:(discriminate)).
  assert (e = "").
  { unfold m_res, answer in OK. cbn [snd] in OK. destruct (String.eqb_spec e "") as [Q|Q]; [exact Q|discriminate OK]. }
  subst e. cbn [answer String.eqb] in HR.
  destruct (verified_dims E VWrite o o' _ _ DB DO HR) as [cv' [a [ds [C' [A [_ [SZ _]]]]]]].
  assert (cv' = cv) by (apply (convention_unique E o cv cv' DB CV C')). subst cv'.
  assert (UD : update_dimensions E o = (o', (ev ++ told HReturn w "") ++ [], Ok tt)).
  { unfold update_dimensions. rewrite (bind_does _ _ _ _ _ _ (H HReturn ltac:(discriminate))).
    cbn [answer String.eqb]. reflexivity. }
  intros d n. rewrite <- SZ. unfold get_dimension. rewrite (bind_does _ _ _ _ _ _ UD), bind_get, A.
  destruct (dget d a); unfold m_res; cbn; split; congruence.
Qed.

(** and their dimensions agree *)
Theorem C71_dimensions_partial :
  forall E o o' d, db_ok E -> rules_tidy E -> dicts_ok o -> reordered o o' ->
  (forall cv, convention_of E o cv -> orderly cv o) ->
  is_ok (m_res (verify E HRaise VWrite o)) = true ->
  forall n, m_res (get_dimension E d o) = Ok n <-> m_res (get_dimension E d o') = Ok n.
Proof.
  intros E o o' d DB RT DO RE OR OK n. destruct (re_sym o o' DO RE) as [DO' RE'].
  assert (OK' : is_ok (m_res (verify E HRaise VWrite o')) = true)
    by (rewrite <- (C71_order_partial E VWrite o o' DB RT DO RE OR); exact OK).
  destruct (accepted_dimension E o DB RT DO OK) as [cv [C S1]].
  destruct (accepted_dimension E o' DB RT DO' OK') as [cv' [C' S2]].
  assert (cv' = cv) by (apply (convention_unique E o cv cv' DB C), (reordered_convention E o o' cv' DO RE C')). subst cv'.
  rewrite S1, S2. apply (verify_iff_valid E VWrite o DB RT DO) in OK. apply (verify_iff_valid E VWrite o' DB RT DO') in OK'.
  destruct OK as [c1 [v1 [cv1 V1]]]. destruct OK' as [c2 [v2 [cv2 V2]]].
  assert (cv1 = cv) by (apply (convention_unique E o cv cv1 DB C), (valid_convention _ _ _ _ _ _ V1)). subst cv1.
  assert (cv2 = cv) by (apply (convention_unique E o' cv cv2 DB C'), (valid_convention _ _ _ _ _ _ V2)). subst cv2.
  split.
  - apply (size_reordered E VWrite o o' c1 v1 cv d n DO RE V1 (OR cv C)).
  - apply (size_reordered E VWrite o' o c2 v2 cv d n DO' RE' V2). apply (re_orderly cv o o' DO RE (OR cv C)).
Qed.
Print Assumptions C71_dimensions_partial.

(** [orderly] can be decided *)
Definition setters (cv : convention) (o : sofa) (c : ascii) : list string :=
  filter (fun k => existsb (Ascii.eqb c) (map fst (states cv o k))) (variables cv o).
Definition comparedb (cv : convention) (o : sofa) (c : ascii) (k : string) : bool :=
  match declared cv o k, dget k (pub o) with
  | Some e, Some v =>
      match e_dims e with
      | Some d =>
          forallb (fun ix => negb (is_lower_ascii (snd ix) && Ascii.eqb (upper_char (snd ix)) c)
            || (forallb (fun alt => match nth_error (chars alt) (fst ix) with
                                    | Some y => Ascii.eqb (upper_char y) c | None => false end) (alternatives d)
                && (negb (String.eqb (e_type e) "double")
                    || (if 1 <? String.length (hd "" (split "," d))
                        then negb (List.length (shape_of v) =? 1) && (fst ix <? 4)
                        else (List.length (shape_of v) <=? 1) && (fst ix =? 0)))))
            (indexed 0 (main_alternative d))
      | None => true
      end
  | _, _ => true
  end.
Definition orderlyb (cv : convention) (o : sofa) : bool :=
  forallb (fun c => let ks := setters cv o c in
             forallb (fun k => forallb (String.eqb k) ks) ks || forallb (comparedb cv o c) ks)
          (map fst (all_states cv o)).

Lemma setters_In cv o k c : states_size cv o k c <-> In k (setters cv o c).
Proof.
  unfold states_size, setters. rewrite filter_In. split; intros [K X]; (split; [exact K|]).
  - destruct X as [n N]. apply existsb_exists. exists c. split; [|apply Ascii.eqb_refl].
    apply in_map_iff. exists (c, n). split; [reflexivity|exact N].
  - apply existsb_exists in X. destruct X as [c' [X1 X2]]. apply Ascii.eqb_eq in X2. subst c'.
    apply in_map_iff in X1. destruct X1 as [[c' n] [X1 X2]]. cbn [fst] in X1. subst c'. exists n. exact X2.
Qed.

Lemma comparedb_ok cv o c k : comparedb cv o c k = true -> compared_as_stated cv o k c.
Proof.
  unfold comparedb. intros H e d v i x D ED G X1 X2 X3. rewrite D, G, ED in H. rewrite forallb_forall in H.
  specialize (H (i, x)). cbn [fst snd] in H. rewrite X2, X3, Ascii.eqb_refl in H. cbn [andb negb orb] in H.
  assert (B := H (proj2 (indexed_nth _ 0 i x) (ex_intro _ i (conj eq_refl X1)))). clear H.
  apply andb_true_iff in B. destruct B as [B1 B2]. split.
  - intros alt A. rewrite forallb_forall in B1. specialize (B1 alt A).
    destruct (nth_error (chars alt) i) as [y|]; [|discriminate B1]. exists y. split; [reflexivity|].
    apply Ascii.eqb_eq. exact B1.
  - intro T. rewrite T in B2. change (negb (String.eqb "double" "double")) with false in B2. cbn [orb] in B2.
    destruct (1 <? String.length (hd "" (split "," d))); apply andb_true_iff in B2; destruct B2 as [B2 B3].
    + apply Nat.ltb_lt in B3. apply negb_true_iff, Nat.eqb_neq in B2. split; assumption.
    + apply Nat.eqb_eq in B3. apply Nat.leb_le in B2. split; assumption.
Qed.

Lemma orderlyb_ok cv o : orderlyb cv o = true -> orderly cv o.
Proof.
  unfold orderlyb, orderly. intros H c. rewrite forallb_forall in H.
  destruct (in_dec Ascii.ascii_dec c (map fst (all_states cv o))) as [I|I].
  - specialize (H c I). apply orb_true_iff in H. destruct H as [H|H]; [left|right].
    + intros k k' A B. apply setters_In in A. apply setters_In in B. rewrite forallb_forall in H.
      specialize (H k A). rewrite forallb_forall in H. apply String.eqb_eq. apply (H k' B).
    + intros k A. apply setters_In in A. rewrite forallb_forall in H. apply comparedb_ok. apply (H k A).
  - left. intros k k' [K [n N]] _. exfalso. apply I. apply in_map_iff. exists (c, n). split; [reflexivity|].
    apply in_flat_map. exists k. split; assumption.
Qed.

(** custom data that use a dimension of their own, added in two orders *)
Definition add_gains (o : sofa) : sofa := m_obj (add_variable "Gains" (nums [1; 2] [5; 6]%Z) "double" (Some "MK") o).
Definition add_bands (s : list nat) (o : sofa) : sofa := m_obj (add_variable "Bands" (nums s [1; 2]%Z) "double" (Some "K") o).

(** objects that differ by a swap of the last two data and of the custom data *)
Definition swap_end {A} (l : list A) : list A :=
  match rev l with a :: b :: r => rev (b :: a :: r) | _ => l end.
Lemma swap_perm {A} (l : list A) : Permutation l (swap_end l).
Proof.
  unfold swap_end. destruct (rev l) as [|a [|b r]] eqn:Q; try apply Permutation_refl.
  apply (perm_trans (Permutation_rev l)). rewrite Q. apply (perm_trans (perm_swap b a r)). apply Permutation_rev.
Qed.
Lemma swapped_reordered x y : pub y = swap_end (pub x) -> custom y = option_map swap_end (custom x) -> reordered x y.
Proof.
  intros P C. split; [rewrite P; apply swap_perm|]. rewrite C. destruct (custom x); [apply swap_perm|exact I].
Qed.

Lemma swapped_same x y : pub y = swap_end (pub x) -> nodupb (dkeys (pub x)) = true ->
  forall k, dget k (pub x) = dget k (pub y).
Proof. intros P N k. rewrite P. symmetry. apply perm_dget; [exact (nodupb_ok _ N)|apply swap_perm]. Qed.

(** The array Bands has the shape (1, 2) and states one band, Gains states two.
    It is accepted if Gains is added last. *)
Theorem C71_refuted :
  let x := add_gains (add_bands [1; 2] demo_sofa) in
  let y := add_bands [1; 2] (add_gains demo_sofa) in
  (forall k, dget k (pub x) = dget k (pub y)) /\ reordered x y
  /\ m_res (verify demo HRaise VWrite x) = Ok None
  /\ exists t, m_res (verify demo HRaise VWrite y) = Err (Exn EValueError t).
Proof.
  cbv zeta. set (x := add_gains (add_bands [1; 2] demo_sofa)). set (y := add_bands [1; 2] (add_gains demo_sofa)).
  assert (P1 : pub y = swap_end (pub x)) by (vm_compute; reflexivity).
  assert (P2 : custom y = option_map swap_end (custom x)) by (vm_compute; reflexivity).
  assert (R := swapped_reordered x y P1 P2).
  split; [|split; [exact R|]].
  - assert (B : nodupb (dkeys (pub x)) = true) by (vm_compute; reflexivity).
    exact (swapped_same x y P1 B).
  - split; [vm_compute; reflexivity|eexists; vm_compute; reflexivity].
Qed.
Print Assumptions C71_refuted.

(** with an array of one axis both orders are accepted *)
Example C71_case :
  let x := add_gains (add_bands [2] demo_sofa) in
  let y := add_bands [2] (add_gains demo_sofa) in
  db_ok demo /\ rules_tidy demo /\ dicts_ok x /\ reordered x y /\ pub x <> pub y
  /\ (forall cv, convention_of demo x cv -> orderly cv x)
  /\ m_res (verify demo HRaise VWrite x) = Ok None /\ m_res (verify demo HRaise VWrite y) = Ok None
  /\ m_res (get_dimension demo "K" x) = Ok 2 /\ m_res (get_dimension demo "K" y) = Ok 2.
Proof.
  cbv zeta. set (x := add_gains (add_bands [2] demo_sofa)). set (y := add_bands [2] (add_gains demo_sofa)).
  split; [exact demo_db_ok|]. split; [exact demo_rules_tidy|].
  assert (BK : nodupb (dkeys (pub x)) = true) by (vm_compute; reflexivity).
  split; [split; [exact (nodupb_ok _ BK)|]|].
  { assert (B : match custom x with Some cu => nodupb (dkeys cu) | None => true end = true) by (vm_compute; reflexivity).
    destruct (custom x); [apply nodupb_ok; exact B|exact I]. }
  assert (P1 : pub y = swap_end (pub x)) by (vm_compute; reflexivity).
  assert (P2 : custom y = option_map swap_end (custom x)) by (vm_compute; reflexivity).
  split; [exact (swapped_reordered x y P1 P2)|].
  split; [intro Q; assert (B : map fst (pub x) = map fst (pub y)) by (rewrite Q; reflexivity); vm_compute in B; discriminate B|].
  split.
  - intros cv C. apply orderlyb_ok.
    assert (C2 : convention_of demo x (sofar_keys (hrir "1.0"))).
    { exists false, "SimpleFreeFieldHRIR", (VStr false "1.0"), (hrir "1.0"). vm_compute. repeat split; auto. }
    rewrite (convention_unique demo x _ cv demo_db_ok C2 C). vm_compute. reflexivity.
  - split; [vm_compute; reflexivity|]. split; [vm_compute; reflexivity|]. split; vm_compute; reflexivity.
Qed.
