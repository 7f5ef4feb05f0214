(** Dimensions of objects with data of the wrong type or shape are not shown (C115). *)
From Verif Require Import Base PyStr PyNum NdArray Sofa Verify Upgrade Demo
  SpecAttr SpecInit SpecValue SpecVerify SpecIssues BaseFacts StrFacts AttrFacts OpFacts InitFacts
  ProtFacts AddDelFacts MissingFacts CoreFacts DictFacts IssueFacts OrderFacts DimFacts DemoFacts ShapeFacts RuleFacts ValidFacts VerifyFacts EqualsFacts IssueLines PropVerify PropIssues PropOption PropLookup.
From Coq Require Import ZArith Lia.
Open Scope string_scope.
Open Scope list_scope.
Open Scope nat_scope.

Definition not_shown : exn :=
  Exn EValueError ("Dimensions can not be shown because variables of wrong type or shape were detected. "
    +++ "Call Sofa.verify() for more information.").

(** neither a dimension nor the list of the dimensions is given *)
Definition blocked (E : env) (o : sofa) : Prop :=
  (forall d, m_res (get_dimension E d o) = Err not_shown) /\ m_res (list_dimensions E o) = Err not_shown.

Lemma blocks E o i : m_res (verify E HReturn VWrite o) = Ok (Some i) ->
  contains "data of wrong type" i = true \/ contains "variables of wrong shape" i = true ->
  blocked E o /\ (m_out (verify E HReturn VWrite o) = [] ->
    (forall d, m_out (get_dimension E d o) = []) /\ m_out (list_dimensions E o) = []).
Proof.
  intros R C. destruct (verify E HReturn VWrite o) as [[o' ev] r] eqn:V.
  unfold m_res in R. cbn [snd] in R. subst r.
  assert (U : update_dimensions E o = (o', ev ++ [], Err not_shown)).
  { unfold update_dimensions. rewrite (bind_does _ _ _ _ _ _ V), bind_get.
    destruct C as [-> | ->]; [|rewrite Bool.orb_true_r]; reflexivity. }
  assert (F : forall A (k : unit -> M A), (do u <- update_dimensions E; k u) o = (o', ev ++ [], Err not_shown)).
  { intros A k. unfold bind. rewrite U. reflexivity. }
  unfold blocked, get_dimension, list_dimensions. rewrite F.
  split; [split; [intro d; rewrite F|]; reflexivity|].
  unfold m_out. cbn [fst snd]. intros ->. split; [intro d; rewrite F|]; reflexivity.
Qed.

Lemma reports_contain head about s sub k t : reports head about s -> about k t ->
  contains sub head = true -> contains sub s = true.
Proof.
  intros [l [[_ T] ->]] A C. apply T in A. destruct l as [|p l]; [destruct A|]. apply contains_l. exact C.
Qed.

(** Data of the wrong type: the error is raised and nothing is printed. *)
Theorem C115_wrong_type :
  forall E o cv k v e, db_ok E -> dicts_ok o -> convention_of E o cv -> complete E o ->
  (forall k, contained o k -> declared cv o k <> None) ->
  dget k (pub o) = Some v -> declared cv o k = Some e -> ~ has_type (e_type e) v ->
  blocked E o /\ (forall d, m_out (get_dimension E d o) = []) /\ m_out (list_dimensions E o) = [].
Proof.
  intros E o cv k v e DB DO CO CP K G D NT.
  destruct (C79_first_report E VWrite o cv DB DO CO K) as [s [FR A]].
  assert (C : contains "data of wrong type" s = true).
  { destruct FR as [s1 s2 _ R2]. apply contains_app.
    eapply reports_contain; [exact R2| |reflexivity]. exists e, v. repeat split; eassumption. }
  destruct A as [_ [_ A]]; [intros ->; discriminate C|]. destruct (A CP) as [R [O _]].
  destruct (blocks E o _ R) as [B Q].
  - left. do 5 apply contains_app. exact C.
  - split; [exact B|]. apply Q. exact O.
Qed.
Print Assumptions C115_wrong_type.

(** Variables of the wrong shape, if the types are correct and verify can report. *)
Theorem C115_wrong_shape :
  forall E o cv k t, db_ok E -> rules_tidy E -> dicts_ok o -> convention_of E o cv -> complete E o ->
  (forall k v, dget k (pub o) = Some v -> exists e, declared cv o k = Some e /\ has_type (e_type e) v) ->
  is_ok (m_res (verify E HReturn VWrite o)) = true -> shape_lines cv o k t ->
  blocked E o.
Proof.
  intros E o cv k t DB RT DO CO CP TY OK SL.
  destruct (C79_second_report E VWrite o cv DB RT DO CO CP TY OK) as [e [w [SR [A _]]]].
  assert (C : contains "variables of wrong shape" e = true).
  { destruct SR as [s1 s2 s3 s4 s5 s6 s7 _ _ _ _ _ R6 _]. do 5 apply contains_app. apply contains_l.
    eapply reports_contain; [exact R6|exact SL|reflexivity]. }
  specialize (A HReturn ltac:(discriminate)). cbn [answer] in A.
  destruct (String.eqb_spec e "") as [->|_]; [discriminate C|].
  apply (proj1 (blocks E o _ A (or_intror (contains_app _ _ _ (contains_l _ _ _ C))))).
Qed.
Print Assumptions C115_wrong_shape.

(** an object with a number as title; an object with the listener at two positions, but one
    measurement; the valid object *)
Example C115_blocked_case :
  blocked demo (put "GLOBAL_Title" (VScal (EInt 1%Z)) demo_sofa)
  /\ (exists cv, convention_of demo three_issues cv /\ exists k t, shape_lines cv three_issues k t)
  /\ blocked demo three_issues
  /\ ~ blocked demo demo_sofa.
Proof.
  assert (X : forall o, match m_res (verify demo HReturn VWrite o) with
                        | Ok (Some i) => contains "data of wrong type" i || contains "variables of wrong shape" i
                        | _ => false end = true -> blocked demo o).
  { intros o H. destruct (m_res (verify demo HReturn VWrite o)) as [[i|]|x] eqn:V; try discriminate H.
    apply (proj1 (blocks demo o i V (proj1 (Bool.orb_true_iff _ _) H))). }
  split; [apply X; vm_compute; reflexivity|]. split; [|split; [apply X; vm_compute; reflexivity|]].
  - destruct C79_case as [[cv [CV [_ SR]]] _]. exists cv. split; [exact CV|].
    remember three_lines as s eqn:Q. destruct SR as [s1 s2 s3 s4 s5 s6 s7 R1 R2 R3 R4 R5 R6 R7].
    apply (f_equal (String.prefix "Detected variables")) in Q.
    destruct R1 as [[|p1 l1] [_ ->]]; [|vm_compute in Q; discriminate Q].
    destruct R2 as [[|p2 l2] [_ ->]]; [|vm_compute in Q; discriminate Q].
    destruct R3 as [[|p3 l3] [_ ->]]; [|vm_compute in Q; discriminate Q].
    destruct R4 as [[|p4 l4] [_ ->]]; [|vm_compute in Q; discriminate Q].
    destruct R5 as [[|p5 l5] [_ ->]]; [|vm_compute in Q; discriminate Q].
    destruct R6 as [[|[k t] l6] [[I6 _] ->]].
    + destruct R7 as [[|p7 l7] [_ ->]]; vm_compute in Q; discriminate Q.
    + exists k, t. apply I6. left. reflexivity.
  - intros [H _]. specialize (H "M"). vm_compute in H. discriminate H.
Qed.

(** ** Other issues *)

Lemma returned_dims E m o cv : db_ok E -> rules_tidy E -> dicts_ok o -> convention_of E o cv -> complete E o ->
  (forall k v, dget k (pub o) = Some v -> exists e, declared cv o k = Some e /\ has_type (e_type e) v) ->
  is_ok (m_res (verify E HReturn m o)) = true ->
  exists a, api (m_obj (verify E HReturn m o)) = Some a /\ forall x n, dget x a = Some n <-> size cv o x n.
Proof.
  intros DB RT DO CO CP TY OK. destruct (reset_of E o cv DB DO CO) as [o1 [RE R]].
  assert (MI : missing o1 = []) by (eapply complete_missing; eassumption).
  assert (TE : type_errors E o1 (dkeys (pub o1)) = Ok "") by (apply (types_iff E cv o o1 R); exact TY).
  assert (VF : verify E HReturn m o
     = outcome HReturn (checked (normative_keys E) E m false "" "" (dkeys (pub o1)) o1)).
  { unfold verify. rewrite verify_gen_eq, (bind_silent _ _ _ _ _ RE), rest_complete by exact MI. reflexivity. }
  assert (CK : checked (normative_keys E) E m false "" "" (dkeys (pub o1)) o1
     = core (normative_keys E) E m (dkeys (pub o1)) o1).
  { unfold checked. rewrite TE. cbv zeta. change ("" +++ section msg_type "") with "".
    cbn [String.eqb negb andb append].
    destruct (core (normative_keys E) E m (dkeys (pub o1)) o1) as [[o2 ev] [[e w]|x]]; reflexivity. }
  rewrite VF, CK in *.
  assert (NL : no_lists o) by (apply (types_no_lists cv o TY)).
  destruct (core (normative_keys E) E m (dkeys (pub o1)) o1) as [[o2 ev] [[e w]|x]] eqn:CE; [|discriminate OK].
  clear VF CK OK. unfold core in CE.
  destruct (name_errors o1 (dkeys (pub o1))) as [ne|x] eqn:NE; [|discriminate CE].
  destruct (cust_check (normative_keys E) o1) as [ev2 [ce|x]] eqn:CC; [|discriminate CE].
  destruct (dims_pure o1) as [[a d] rs] eqn:DP. cbv zeta in CE.
  assert (CE1 := f_equal (fun x => fst (fst x)) CE). cbn [fst] in CE1.
  assert (CE2 := f_equal snd CE). cbn [snd] in CE2. clear CE.
  apply rbind_Ok in CE2. destruct CE2 as [se [-> _]].
  destruct (dims_pure_detect _ _ _ _ DP) as [s [HD ->]].
  exists (fixed_sizes s). split; [|exact (sizes_iff cv o o1 R DO NL s HD)].
  unfold m_obj. cbn [outcome fst snd]. subst o2. reflexivity.
Qed.

(** Other issues do not hide the dimensions, unless the report happens to contain the
    text by which wrong types and shapes are recognized. *)
Theorem C116_shown_partial :
  forall E o cv i, db_ok E -> rules_tidy E -> dicts_ok o -> convention_of E o cv -> complete E o ->
  (forall k v, dget k (pub o) = Some v -> exists e, declared cv o k = Some e /\ has_type (e_type e) v) ->
  m_res (verify E HReturn VWrite o) = Ok i ->
  (forall t, i = Some t -> forall p q, t <> p +++ "data of wrong type" +++ q /\ t <> p +++ "variables of wrong shape" +++ q) ->
  forall d, (forall n, m_res (get_dimension E d o) = Ok n <-> size cv o d n)
    /\ (forall x, m_res (get_dimension E d o) = Err x <-> x = no_dimension d /\ forall n, ~ size cv o d n).
Proof.
  intros E o cv i DB RT DO CO CP TY VI NC d.
  destruct (returned_dims E VWrite o cv DB RT DO CO CP TY) as [a [A SZ]]; [rewrite VI; reflexivity|].
  destruct (verify E HReturn VWrite o) as [[o' ev] r] eqn:V. unfold m_res in VI. cbn [snd] in VI. subst r.
  unfold m_obj in A. cbn [fst] in A.
  assert (U : exists ev', update_dimensions E o = (o', ev', Ok tt)).
  { unfold update_dimensions. rewrite (bind_does _ _ _ _ _ _ V), bind_get. destruct i as [t|]; [|eexists; reflexivity].
    specialize (NC t eq_refl).
    destruct (contains "data of wrong type" t) eqn:C1.
    { apply contains_iff in C1. destruct C1 as [p [q C1]]. destruct (proj1 (NC p q) C1). }
    destruct (contains "variables of wrong shape" t) eqn:C2.
    { apply contains_iff in C2. destruct C2 as [p [q C2]]. destruct (proj2 (NC p q) C2). }
    rewrite A. eexists. reflexivity. }
  destruct U as [ev' U].
  assert (GD : m_res (get_dimension E d o) = match dget d a with Some n => Ok n | None => Err (no_dimension d) end).
  { unfold get_dimension. rewrite (bind_does _ _ _ _ _ _ U), bind_get, A. destruct (dget d a); reflexivity. }
  rewrite GD. split.
  - intro n. rewrite <- SZ. destruct (dget d a); split; congruence.
  - intro x. split.
    + destruct (dget d a) as [m|] eqn:G; [discriminate|]. intro Q. injection Q as <-. split; [reflexivity|].
      intros n S. apply SZ in S. congruence.
    + intros [-> N]. destruct (dget d a) as [m|] eqn:G; [|reflexivity]. apply SZ in G. destruct (N m G).
Qed.
Print Assumptions C116_shown_partial.

(** an object whose only issue is the text of an attribute *)
Definition odd_type (t : string) : sofa := put "ListenerPosition_Type" (VStr false t) demo_sofa.

Definition odd_report (t : string) : string :=
  err_head +++ "Detected violations of the SOFA convention:" +++ nl
  +++ "- ListenerPosition_Type is " +++ t +++ " but must be cartesian, spherical" +++ nl.

(** The full statement does not hold: the shapes are correct, but the text of an
    attribute that is cited in the report is taken for a wrong shape. *)
Theorem C116_refuted :
  m_res (verify demo HReturn VWrite (odd_type "variables of wrong shape"))
    = Ok (Some (odd_report "variables of wrong shape"))
  /\ m_res (verify demo HReturn VWrite (odd_type "polar")) = Ok (Some (odd_report "polar"))
  /\ m_res (get_dimension demo "M" (odd_type "polar")) = Ok 1
  /\ blocked demo (odd_type "variables of wrong shape").
Proof.
  assert (V : m_res (verify demo HReturn VWrite (odd_type "variables of wrong shape"))
    = Ok (Some (odd_report "variables of wrong shape"))) by (vm_compute; reflexivity).
  split; [exact V|]. split; [vm_compute; reflexivity|]. split; [vm_compute; reflexivity|].
  apply (proj1 (blocks demo _ _ V (or_intror (eq_refl)))).
Qed.
Print Assumptions C116_refuted.

Example C116_case :
  dicts_ok (odd_type "polar") /\ complete demo (odd_type "polar")
  /\ (exists cv, convention_of demo (odd_type "polar") cv
      /\ forall k v, dget k (pub (odd_type "polar")) = Some v ->
           exists e, declared cv (odd_type "polar") k = Some e /\ has_type (e_type e) v)
  /\ (forall p q, odd_report "polar" <> p +++ "data of wrong type" +++ q
        /\ odd_report "polar" <> p +++ "variables of wrong shape" +++ q).
Proof.
  assert (DO : dicts_ok (odd_type "polar")) by (apply put_dicts; exact demo_dicts).
  split; [exact DO|]. split; [|split].
  - intros cv k e CO D M. destruct (reset_of demo (odd_type "polar") cv demo_db_ok DO CO) as [o1 [RE R]].
    assert (X : match reset_convention demo (odd_type "polar") with (x, _, Ok _) => missing x | _ => [(k, e)] end = []).
    { vm_compute. reflexivity. }
    rewrite RE in X. exact (proj1 (missing_iff cv (odd_type "polar") o1 R) X k e D M).
  - assert (TX : match reset_convention demo (odd_type "polar") with
                 | (x, _, Ok _) => type_errors demo x (dkeys (pub x)) | _ => Ok "no" end = Ok "").
    { vm_compute. reflexivity. }
    assert (RX : match reset_convention demo (odd_type "polar") with (_, _, Ok _) => true | _ => false end = true).
    { vm_compute. reflexivity. }
    destruct (reset_none_or demo (odd_type "polar")) as [[x RE]|[o1 RE]]; [rewrite RE in RX; discriminate RX|].
    rewrite RE in TX. clear RX.
    destruct (proj1 (reset_iff demo (odd_type "polar") demo_db_ok DO) o1 RE) as [b [c [w [content [H1 [H2 [H3 R]]]]]]].
    exists (sofar_keys content). split; [exists b, c, w, content; auto|].
    exact (proj1 (types_iff demo (sofar_keys content) (odd_type "polar") o1 R) TX).
  - intros p q.
    assert (X1 : contains "data of wrong type" (odd_report "polar") = false) by (vm_compute; reflexivity).
    assert (X2 : contains "variables of wrong shape" (odd_report "polar") = false) by (vm_compute; reflexivity).
    split; intro Q.
    + assert (C := proj2 (contains_iff "data of wrong type" (odd_report "polar")) (ex_intro _ p (ex_intro _ q Q))). congruence.
    + assert (C := proj2 (contains_iff "variables of wrong shape" (odd_report "polar")) (ex_intro _ p (ex_intro _ q Q))). congruence.
Qed.
