(** C11-C23: verify, dimensions, restricted values. *)
From Verif Require Import Base PyStr PyNum NdArray Sofa Verify Upgrade Demo
  SpecAttr SpecInit SpecValue SpecVerify DemoFacts BaseFacts StrFacts AttrFacts OpFacts InitFacts ProtFacts
  MissingFacts CoreFacts ValidFacts ShapeFacts RuleFacts VerifyFacts DictFacts IssueFacts DimFacts.
From Coq Require Import ZArith Lia.
Open Scope string_scope.
Open Scope list_scope.

(** the demo object with other data *)
Definition put (k : string) (v : value) (o : sofa) : sofa := with_pub o (dset k v (pub o)).
Definition nums (s : list nat) (l : list Z) : value := VArr (Arr KI s (map EInt l) false).

Lemma demo_rules_tidy : rules_tidy demo.
Proof.
  assert (N : forall k, smem (python_name k) class_attrs = false -> not_method k).
  { intros k H. unfold not_method. apply smem_false. exact H. }
  intros k r [I|[I|[]]]; inversion I; subst; clear I; (split; [apply N; vm_compute; reflexivity|]); (split;
    [intros g Ig; cbn in Ig; repeat (destruct Ig as [<-|Ig]; [apply N; vm_compute; reflexivity|]); destruct Ig|]);
    intros sp x items d S I J; cbn in S; inversion S; subst; clear S; cbn in I;
    repeat (destruct I as [I|I]; [inversion I; subst; clear I; cbn in J;
      repeat (destruct J as [<-|J]; [apply N; vm_compute; reflexivity|]); destruct J|]); destruct I.
Qed.

Lemma demo_dicts : dicts_ok demo_sofa.
Proof. apply (init_dicts demo "SimpleFreeFieldHRIR" false "latest" VAuto [] demo_sofa). exact demo_created. Qed.

Lemma put_dicts k v o : dicts_ok o -> dicts_ok (put k v o).
Proof. intros [H1 H2]. split; [apply NoDup_dset; exact H1|exact H2]. Qed.

(** ** C11 *)

Theorem C11_verify_iff_valid :
  forall E m o, db_ok E -> rules_tidy E -> dicts_ok o ->
  (is_ok (m_res (verify E HRaise m o)) = true <-> valid E m o).
Proof. exact verify_iff_valid. Qed.
Print Assumptions C11_verify_iff_valid.

(** the hypothesis on the dictionaries holds in every history *)
Theorem C11_reachable :
  forall E c mandatory version vo ev o ops m, db_ok E -> rules_tidy E ->
  sofa_init E c mandatory version vo = (ev, Ok o) ->
  (is_ok (m_res (verify E HRaise m (run E o ops))) = true <-> valid E m (run E o ops)).
Proof.
  intros E c mandatory version vo ev o ops m DB RT HI.
  apply verify_iff_valid; [exact DB|exact RT|]. apply run_dicts. eapply init_dicts. exact HI.
Qed.
Print Assumptions C11_reachable.

Example C11_case :
  valid demo VWrite demo_sofa
  /\ valid demo VWrite (put "ListenerPosition" (nums [1; 3] [1; 2; 3]%Z) demo_sofa)
  /\ ~ valid demo VWrite (put "ListenerPosition" (nums [2; 3] [1; 2; 3; 4; 5; 6]%Z) demo_sofa)
  /\ ~ valid demo VWrite (put "ListenerPosition_Type" (VStr false "polar") demo_sofa)
  /\ ~ valid demo VWrite (put "ListenerPosition_Units" (VStr false "Metre") demo_sofa)
  /\ valid demo VRead (put "ListenerPosition_Units" (VStr false "Metre") demo_sofa).
Proof.
  assert (D := demo_dicts).
  assert (A : forall m o, dicts_ok o -> is_ok (m_res (verify demo HRaise m o)) = true -> valid demo m o).
  { intros m o DO. apply C11_verify_iff_valid; [exact demo_db_ok|exact demo_rules_tidy|exact DO]. }
  assert (B : forall m o, dicts_ok o -> is_ok (m_res (verify demo HRaise m o)) = false -> ~ valid demo m o).
  { intros m o DO H V. apply C11_verify_iff_valid in V; [congruence|exact demo_db_ok|exact demo_rules_tidy|exact DO]. }
  split; [apply A; [exact D|vm_compute; reflexivity]|].
  split; [apply A; [apply put_dicts; exact D|vm_compute; reflexivity]|].
  split; [apply B; [apply put_dicts; exact D|vm_compute; reflexivity]|].
  split; [apply B; [apply put_dicts; exact D|vm_compute; reflexivity]|].
  split; [apply B; [apply put_dicts; exact D|vm_compute; reflexivity]|].
  apply A; [apply put_dicts; exact D|vm_compute; reflexivity].
Qed.

(** ** C12 *)

Theorem C12_verify_keeps_data :
  forall E h m o, db_ok E -> dicts_ok o ->
  let o' := m_obj (verify E h m o) in
  (forall k v, dget k (pub o) = Some v -> dget k (pub o') = Some v)
  /\ (h = HRaise -> pub o' = pub o)
  /\ (forall k v, dget k (pub o') = Some v -> dget k (pub o) = Some v
      \/ exists cv e, convention_of E o cv /\ declared cv o k = Some e
           /\ is_mandatory (e_flags e) = true /\ ~ contained o k /\ added_default e v).
Proof.
  intros E h m o DB DO o'. split; [|split].
  - intros k v G. unfold o'.
    destruct (verify_settles E h m o) as [GR|[o1 [R GR]]]; [apply (gr_pub _ _ GR); exact G|].
    apply (gr_pub _ _ GR). assert (DS := reset_data_same E o). rewrite R in DS.
    change (m_obj (o1, [], Ok tt)) with o1 in DS. rewrite (ds_pub _ _ DS). exact G.
  - intros ->. exact (proj1 (verify_raise_pub (normative_keys E) E m o)).
  - intros k v G. eapply verify_added; eassumption.
Qed.
Print Assumptions C12_verify_keeps_data.

(** an object without Data_SamplingRate *)
Definition no_rate : sofa := with_pub demo_sofa (ddel "Data_SamplingRate" (pub demo_sofa)).

Example C12_case :
  dget "Data_SamplingRate" (pub no_rate) = None
  /\ dget "Data_SamplingRate" (pub (m_obj (verify demo HIgnore VWrite no_rate))) = Some (zi 48000%Z)
  /\ dget "Data_SamplingRate" (pub (m_obj (verify demo HRaise VWrite no_rate))) = None
  /\ is_ok (m_res (verify demo HRaise VWrite no_rate)) = false.
Proof. repeat split; vm_compute; reflexivity. Qed.

(** ** C13 *)

(** All modes find the same errors [e] and warnings [w] and leave the same
    object; [told] and [answer] say what each mode does with them. Missing:
    'return' gives None if there are only warnings, and a warning is emitted in
    all modes if the object has custom data and a preliminary version
    ([C13_refuted]). *)
Theorem C13_modes_agree_partial :
  forall E m o, db_ok E -> dicts_ok o -> complete E o ->
  (exists x, exists o' ev, (forall h, h <> HIgnore -> verify E h m o = (o', ev, Err x))
     /\ (custom o = None -> ev = []))
  \/ (exists o' ev e w, (forall h, h <> HIgnore ->
        verify E h m o = (o', ev ++ told h w e, answer h w e))
      /\ (custom o = None -> ev = [])).
Proof.
  intros E m o DB DO C. destruct (verify_complete E m o DB DO C) as [[[o' ev] [[e w]|x]] [H1 H2]].
  - right. exists o', ev, e, w. split; [exact H1|exact H2].
  - left. exists x, o', ev. split; [exact H1|exact H2].
Qed.
Print Assumptions C13_modes_agree_partial.

(** the consequence for the messages *)
Theorem C13_messages_partial :
  forall E m o, db_ok E -> dicts_ok o -> complete E o ->
  (forall e, m_res (verify E HReturn m o) = Ok None ->
     m_res (verify E HRaise m o) <> Err e)
  /\ (forall s, m_res (verify E HReturn m o) = Ok (Some s) ->
        exists msg rest, m_res (verify E HRaise m o) = Err (Exn EValueError msg)
          /\ s = msg +++ rest /\ In (EvPrint msg) (m_out (verify E HPrint m o))
          /\ (rest = "" \/ exists w, rest = nl +++ w
                /\ In (EvWarn w) (m_out (verify E HRaise m o))
                /\ In (EvPrint w) (m_out (verify E HPrint m o))))
  /\ (custom o = None -> m_out (verify E HReturn m o) = [] /\ m_out (verify E HIgnore m o) = []).
Proof.
  intros E m o DB DO C.
  assert (IG : custom o = None -> m_out (verify E HIgnore m o) = []).
  { intro CN. destruct (verify_ignore E m o DB DO C) as [[[o' ev] [[e w]|x]] [H1 H2]]; rewrite H1;
      specialize (H2 CN); cbn in H2; subst ev; reflexivity. }
  destruct (verify_complete E m o DB DO C) as [[[o' ev] [[e w]|x]] [H1 H2]].
  - rewrite !H1 by discriminate. unfold m_res, m_out, outcome. cbn [fst snd]. split; [|split].
    + intros x Q. unfold answer in *. destruct (String.eqb e ""); discriminate.
    + intros s Q. unfold answer in Q. destruct (String.eqb_spec e "") as [->|N]; [discriminate|].
      exists (err_head +++ e), (if String.eqb w "" then "" else nl +++ warn_head +++ w).
      unfold answer. rewrite (eqb_neq_s _ _ N). split; [reflexivity|].
      split; [assert (OI : forall a b : string, Ok (Some a) = Ok (Some b) -> a = b) by congruence;
              apply OI in Q; rewrite <- Q, sapp_assoc; reflexivity|].
      unfold told. rewrite (eqb_neq_s _ _ N). split.
      { apply in_or_app. right. apply in_or_app. right. left. reflexivity. }
      destruct (String.eqb_spec w "") as [->|W]; [left; reflexivity|]. right. exists (warn_head +++ w).
      split; [reflexivity|]. split; [apply in_or_app; right; left; reflexivity|].
      apply in_or_app; right; left; reflexivity.
    + intro CN. specialize (H2 CN). cbn in H2. subst ev. split; [reflexivity|exact (IG CN)].
  - rewrite !H1 by discriminate. unfold m_res, m_out, outcome. cbn [fst snd].
    split; [discriminate|]. split; [discriminate|]. intro CN. specialize (H2 CN). cbn in H2. subst ev.
    split; [reflexivity|exact (IG CN)].
Qed.
Print Assumptions C13_messages_partial.

(** an object of version 0.4 without and with custom data *)
Definition demo04 : sofa :=
  match sofa_init demo "SimpleFreeFieldHRIR" false "0.4" VAuto with (_, Ok o) => o | _ => empty_sofa end.
Definition demo04_custom : sofa := m_obj (add_variable "Mood" (zi 1%Z) "double" (Some "I") demo04).

Theorem C13_refuted :
  (* a warning is detected, 'return' gives None *)
  (exists w, m_out (verify demo HRaise VRead demo04) = [EvWarn w]
     /\ m_res (verify demo HReturn VRead demo04) = Ok None)
  (* 'return' and 'ignore' emit a warning *)
  /\ (exists w, m_out (verify demo HReturn VRead demo04_custom) = [EvWarn w]
     /\ m_out (verify demo HIgnore VRead demo04_custom) = [EvWarn w]).
Proof.
  split.
  - eexists. split; vm_compute; reflexivity.
  - eexists. split; vm_compute; reflexivity.
Qed.
Print Assumptions C13_refuted.

Lemma complete_dec E o o1 : db_ok E -> dicts_ok o -> reset_convention E o = (o1, [], Ok tt) ->
  missing o1 = [] -> complete E o.
Proof.
  intros DB DO R M. destruct (reset_iff E o DB DO) as [RI _].
  destruct (RI _ R) as [b [c [w [content [H1 [H2 [H3 H4]]]]]]].
  intros cv k e [b' [c' [w' [content' [G1 [G2 [G3 ->]]]]]]] D MA.
  rewrite H1 in G1. rewrite H2 in G2. inversion G1; inversion G2; subst.
  assert (content' = content).
  { assert (N := proj1 DB). unfold has_file in *.
    apply (In_dget _ _ _ N) in G3. apply (In_dget _ _ _ N) in H3. congruence. }
  subst. exact (proj1 (missing_iff _ _ _ H4) M k e D MA).
Qed.

Example C13_case :
  complete demo demo_sofa
  /\ (exists e, m_res (verify demo HRaise VWrite
        (put "ListenerPosition_Units" (VStr false "Metre") demo_sofa)) = Err (Exn EValueError e)
      /\ m_res (verify demo HReturn VWrite
        (put "ListenerPosition_Units" (VStr false "Metre") demo_sofa)) = Ok (Some e)).
Proof.
  split.
  - assert (X : forall r, r = reset_convention demo demo_sofa -> complete demo demo_sofa).
    { intros r Hr. assert (Y : r = (m_obj r, [], Ok tt)) by (rewrite Hr; vm_compute; reflexivity).
      eapply (complete_dec demo demo_sofa (m_obj r)); [exact demo_db_ok|exact demo_dicts| |].
      - rewrite <- Hr. exact Y.
      - rewrite Hr. vm_compute. reflexivity. }
    exact (X _ eq_refl).
  - eexists. split; vm_compute; reflexivity.
Qed.

(** ** C14 *)

(** For complete objects and for issue_handling='raise' the second call gives
    exactly the same object, output and result, for the general case see
    [C14_same_result] in PropTwice.v. *)
Theorem C14_idempotent :
  forall E h m o, (h = HRaise \/ (db_ok E /\ dicts_ok o /\ complete E o)) ->
  verify E h m (m_obj (verify E h m o)) = verify E h m o.
Proof.
  intros E h m o [->|[DB [DO C]]]; [apply verify_raise_twice|apply verify_twice; assumption].
Qed.
Print Assumptions C14_idempotent.

(** [no_flags]: custom data are not mandatory, true for all objects that can be
    obtained *)
Theorem C14_second_call :
  forall E h m o o1 ev r, db_ok E -> dicts_ok o -> no_flags o -> h <> HRaise ->
  verify E h m o = (o1, ev, Ok r) ->
  complete E o1
  /\ pub (m_obj (verify E h m o1)) = pub o1
  /\ verify E h m (m_obj (verify E h m o1)) = verify E h m o1.
Proof.
  intros E h m o o1 ev r DB DO NF NR H.
  destruct (verify_completes _ _ _ _ _ _ _ DB DO NF NR H) as [C1 DO1].
  split; [exact C1|]. split; [|apply verify_twice; assumption].
  unfold verify. rewrite verify_gen_eq.
  destruct (reset_none_or E o1) as [[x R]|[o2 R]].
  - rewrite (bind_fails _ _ _ _ _ _ R). reflexivity.
  - rewrite (bind_silent _ _ _ _ _ R), verify_rest_pub, (complete_missing _ _ _ DB DO1 C1 R).
    assert (DS := reset_data_same E o1). rewrite R in DS.
    replace (m_obj (when (negb (h_raise h)) (add_defaults []) o2)) with o2 by (destruct h; reflexivity).
    exact (ds_pub _ _ DS).
Qed.
Print Assumptions C14_second_call.

Example C14_case :
  is_ok (m_res (verify demo HPrint VWrite no_rate)) = true /\ no_flags no_rate
  /\ m_out (verify demo HPrint VRead demo04) <> []
  /\ m_out (verify demo HPrint VRead (m_obj (verify demo HPrint VRead demo04)))
     = m_out (verify demo HPrint VRead demo04).
Proof.
  split; [vm_compute; reflexivity|]. split; [|split; vm_compute; [discriminate|reflexivity]].
  intros cu k e C _. vm_compute in C. discriminate.
Qed.

(** ** C15 *)

Theorem C15_write_implies_read :
  forall E o, is_ok (m_res (verify E HRaise VWrite o)) = true ->
  is_ok (m_res (verify E HRaise VRead o)) = true.
Proof. exact write_read_ok. Qed.
Print Assumptions C15_write_implies_read.

Example C15_case :
  is_ok (m_res (verify demo HRaise VWrite demo_sofa)) = true
  /\ is_ok (m_res (verify demo HRaise VWrite (put "ListenerPosition_Units" (VStr false "Metre") demo_sofa))) = false
  /\ is_ok (m_res (verify demo HRaise VRead (put "ListenerPosition_Units" (VStr false "Metre") demo_sofa))) = true.
Proof. repeat split; vm_compute; reflexivity. Qed.

(** ** C16 *)

(** [dims o'] are the dimensions shown by inspect *)
Theorem C16_dimensions_consistent :
  forall E m o o' ev r, db_ok E -> dicts_ok o -> verify E HRaise m o = (o', ev, Ok r) ->
  exists cv D, convention_of E o cv /\ dims o' = Some D
  /\ (forall k, In k (variables cv o) -> exists e d v s alt,
        declared cv o k = Some e /\ e_dims e = Some d /\ dget k (pub o) = Some v
        /\ compared_shape (e_type e) d v s /\ In alt (alternatives d)
        /\ dget k D = Some (upper alt) /\ fits cv o s alt)
  /\ (forall x n n', size cv o x n -> size cv o x n' -> n = n')
  /\ size cv o "C" 3 /\ size cv o "I" 1.
Proof.
  intros E m o o' ev r DB DO H.
  destruct (verified_dims E m o o' ev r DB DO H) as [cv [a [d [C [A [D [S V]]]]]]].
  exists cv, d. split; [exact C|]. split; [exact D|]. split; [exact V|].
  split; [intros x n n'; rewrite <- !S; congruence|].
  split; [left; auto|right; left; auto].
Qed.
Print Assumptions C16_dimensions_consistent.

(** two variables that share a dimension have the same extent *)
Theorem C16_shared_dimension :
  forall E m o o' ev r, db_ok E -> dicts_ok o -> verify E HRaise m o = (o', ev, Ok r) ->
  forall cv s1 a1 i x1 s2 a2 j x2, convention_of E o cv ->
  fits cv o s1 a1 -> nth_error (chars a1) i = Some x1 ->
  fits cv o s2 a2 -> nth_error (chars a2) j = Some x2 ->
  upper_char x1 = upper_char x2 -> x1 <> "S"%char -> x2 <> "S"%char ->
  nth i s1 1 = nth j s2 1.
Proof.
  intros E m o o' ev r DB DO H cv s1 a1 i x1 s2 a2 j x2 C F1 N1 F2 N2 U S1 S2.
  destruct (verified_dims E m o o' ev r DB DO H) as [cv' [a [d [C' [A [D [S V]]]]]]].
  assert (cv' = cv).
  { destruct C as [b [c [w [ct [G1 [G2 [G3 ->]]]]]]]. destruct C' as [b' [c' [w' [ct' [G1' [G2' [G3' ->]]]]]]].
    rewrite G1 in G1'. rewrite G2 in G2'. inversion G1'; inversion G2'; subst.
    assert (N := proj1 DB). unfold has_file in *.
    apply (In_dget _ _ _ N) in G3. apply (In_dget _ _ _ N) in G3'. congruence. }
  subst cv'. specialize (F1 i x1 N1). specialize (F2 j x2 N2). unfold extent in *.
  apply Ascii.eqb_neq in S1. apply Ascii.eqb_neq in S2. rewrite S1 in F1. rewrite S2 in F2.
  rewrite U in F1. apply S in F1. apply S in F2. congruence.
Qed.
Print Assumptions C16_shared_dimension.

Example C16_case :
  is_ok (m_res (verify demo HRaise VWrite demo_sofa)) = true
  /\ match dims (m_obj (verify demo HRaise VWrite demo_sofa)) with
     | Some D => dget "Data_IR" D = Some "MRN" /\ dget "ListenerPosition" D = Some "IC"
     | None => False
     end
  /\ m_res (get_dimension demo "R" demo_sofa) = Ok 2 /\ m_res (get_dimension demo "N" demo_sofa) = Ok 2.
Proof. vm_compute. repeat split; reflexivity. Qed.

(** ** C17 *)

Theorem C17_dimension_not_stale :
  forall E d o o' ev n, db_ok E -> dicts_ok o -> get_dimension E d o = (o', ev, Ok n) ->
  exists cv, convention_of E o cv /\ size cv o' d n /\ (pub o' = pub o -> size cv o d n).
Proof. exact get_dimension_fresh. Qed.
Print Assumptions C17_dimension_not_stale.

(** the cached dimensions say N=2, then longer data are assigned *)
Example C17_case :
  let o1 := m_obj (verify demo HRaise VWrite demo_sofa) in
  let o2 := m_obj (set_attr "Data_IR" (nums [1; 2; 3] [1; 0; 0; 0; 1; 0]%Z) o1) in
  match api o2 with Some a => dget "N" a = Some 2 | None => False end
  /\ m_res (get_dimension demo "N" o2) = Ok 3.
Proof. vm_compute. split; reflexivity. Qed.

(** ** C18 *)

Theorem C18_longest_string :
  forall E o o' ev n, db_ok E -> dicts_ok o -> get_dimension E "S" o = (o', ev, Ok n) ->
  exists cv, convention_of E o cv
  /\ (forall k v s ls l, string_variable cv o' k -> dget k (pub o') = Some v ->
        strings v s ls -> In l ls -> l <= n)
  /\ (n = 0 \/ exists k v s ls, string_variable cv o' k /\ dget k (pub o') = Some v
        /\ strings v s ls /\ In n ls).
Proof.
  intros E o o' ev n DB DO H. destruct (get_dimension_fresh E "S" o o' ev n DB DO H) as [cv [C [S _]]].
  exists cv. split; [exact C|]. destruct S as [[S _]|[[S _]|[[_ S]|[c [l [r [S [N _]]]]]]]]; try discriminate.
  - destruct S as [S1 S2]. split; [exact S1|exact S2].
  - unfold str1 in S. inversion S; subst. discriminate.
Qed.
Print Assumptions C18_longest_string.

Definition with_texts : sofa :=
  put "SourceDescriptions" (VArr (Arr KU [1; 1] [EStr "loudspeaker"] false)) demo_sofa.
Example C18_case : m_res (get_dimension demo "S" with_texts) = Ok 11.
Proof. vm_compute. reflexivity. Qed.

(** ** C19 *)

(** the extents given by an alternative *)
Definition extents (cv : convention) (o : sofa) (alt : string) (ns : list nat) : Prop :=
  Forall2 (extent cv o) (chars alt) ns.

(** A numeric array with at most as many axes as declared has exactly the
    declared number of elements; for variables with a single dimension this
    holds for every number of axes. Missing: further axes are not looked at
    ([C19_refuted]). *)
Theorem C19_declared_axes_partial :
  forall E m o o' ev r, db_ok E -> dicts_ok o -> verify E HRaise m o = (o', ev, Ok r) ->
  exists cv, convention_of E o cv /\ forall k e d v, In k (variables cv o) ->
    declared cv o k = Some e -> e_dims e = Some d -> e_type e = "double" ->
    dget k (pub o) = Some v ->
    exists alt ns, In alt (alternatives d) /\ extents cv o alt ns
    /\ (String.length (hd "" (split "," d)) <= 1 -> alt <> "" -> prod (shape_of v) = prod ns)
    /\ (1 < String.length (hd "" (split "," d)) -> 2 <= String.length alt ->
        List.length (shape_of v) <= String.length alt -> prod (shape_of v) = prod ns).
Proof.
  intros E m o o' ev r DB DO H.
  destruct (verified_dims E m o o' ev r DB DO H) as [cv [a [D [C [_ [_ [_ V]]]]]]].
  exists cv. split; [exact C|]. intros k e d v IV DE ED ET G.
  destruct (V k IV) as [e' [d' [v' [s [alt [DE' [ED' [G' [CS [IA [_ F]]]]]]]]]]].
  rewrite DE in DE'. inversion DE'; subst e'. rewrite ED in ED'. inversion ED'; subst d'.
  rewrite G in G'. inversion G'; subst v'. clear DE' ED' G'.
  exists alt, (shape_fit s (List.length (chars alt))). split; [exact IA|]. split.
  { apply Forall2_nth. rewrite shape_fit_length. split; [reflexivity|].
    intros i x n N1 N2. assert (L : i < List.length (chars alt)) by (apply nth_error_Some; congruence).
    rewrite shape_fit_nth in N2 by exact L. inversion N2; subst. apply F. exact N1. }
  rewrite chars_length. rewrite ET in CS. split.
  - intros L NE. inversion CS as [s' ls [X|X] _|_ _ X|_ _ X]; subst; try discriminate; [lia|].
    destruct alt as [|c alt]; [congruence|]. cbn [String.length]. unfold shape_fit. cbn [firstn].
    rewrite firstn_nil. cbn [List.length app Nat.sub]. rewrite Nat.sub_0_r.
    change (prod (prod (shape_of v) :: repeat 1 (String.length alt))) with
      (prod (shape_of v) * prod (repeat 1 (String.length alt))).
    assert (P1 : forall n, prod (repeat 1 n) = 1) by (induction n; cbn; lia). rewrite P1. lia.
  - intros L2 LA LS. inversion CS as [s' ls [X|X] _|_ _ X|_ _ X]; subst; try discriminate; [|lia].
    assert (P1 : forall n, prod (repeat 1 n) = 1) by (induction n as [|n IHn]; cbn in *; lia).
    assert (PA : forall x y, prod (x ++ y) = prod x * prod y)
      by (induction x as [|x0 x IHx]; intros; cbn in *; [lia|rewrite IHx; lia]).
    unfold shape_fit. rewrite PA, P1, Nat.mul_1_r.
    assert (PF : forall x n, List.length x <= n -> prod (firstn n x) = prod x)
      by (intros; rewrite firstn_all2 by assumption; reflexivity).
    assert (PG : forall x y n, List.length x <= n -> prod (firstn n (x ++ repeat 1 y)) = prod x).
    { intros x y n Hn. rewrite firstn_app, PA, firstn_all2 by exact Hn.
      assert (Z : forall i j, prod (firstn i (repeat 1 j)) = 1).
      { induction i as [|i IHi]; intros [|j]; cbn in *; try reflexivity. specialize (IHi j). lia. }
      rewrite Z. lia. }
    set (n := String.length alt) in *.
    destruct (shape_of v) as [|x [|y [|z [|t rest]]]]; cbn [shape4].
    + exact (eq_sym (PG [] 4 n ltac:(cbn; lia))).
    + transitivity (prod [1; x]); [cbn; lia|]. exact (eq_sym (PG [1; x] 2 n ltac:(cbn in *; lia))).
    + exact (eq_sym (PG [x; y] 2 n ltac:(cbn in *; lia))).
    + exact (eq_sym (PG [x; y; z] 1 n ltac:(cbn in *; lia))).
    + rewrite PF by exact LS. reflexivity.
Qed.
Print Assumptions C19_declared_axes_partial.

(** impulse responses with an undeclared axis of size 2 are accepted *)
Definition extra_axis : sofa := put "Data_IR" (nums [1; 2; 2; 2] [1; 2; 3; 4; 5; 6; 7; 8]%Z) demo_sofa.
Theorem C19_refuted :
  is_ok (m_res (verify demo HRaise VWrite extra_axis)) = true
  /\ (exists e, dget "Data_IR" (conv demo_sofa) = Some e /\ e_dims e = Some "mRn")
  /\ (exists v, dget "Data_IR" (pub extra_axis) = Some v /\ shape_of v = [1; 2; 2; 2]).
Proof.
  split; [vm_compute; reflexivity|]. split; eexists; split; vm_compute; reflexivity.
Qed.
Print Assumptions C19_refuted.

Example C19_case :
  is_ok (m_res (verify demo HRaise VWrite demo_sofa)) = true
  /\ match dget "Data_IR" (pub demo_sofa) with Some v => shape_of v = [1; 2; 2] | None => False end.
Proof. vm_compute. split; reflexivity. Qed.

(** ** C20 *)

(** Missing: units separated by spaces only are rejected ([C20_refuted]). *)
Theorem C20_unit_strings_partial :
  forall E key b s r, endswith "Units" key = true ->
  (verify_value (VStr b s) (Some [r]) (aliases E) key = Ok true
   <-> s = r \/ lower s = r \/ same_units (aliases E) (lower s) r).
Proof.
  intros E key b s r U. rewrite verify_value_iff. unfold allowed.
  assert (K : key <> "GLOBAL_DataType" /\ key <> "GLOBAL_SOFAConventions").
  { split; intros ->; vm_compute in U; discriminate. }
  split.
  - intros [b' [s' [Q H]]]. inversion Q; subst b' s'.
    destruct H as [[H|[]]|[_ [_ [[H|[]]|[_ [r' [H1 H2]]]]]]]; auto. inversion H1; subst. auto.
  - intro H. exists b, s. split; [reflexivity|].
    destruct H as [H|[H|H]]; [left; left; auto| |]; right; (split; [apply K|]); (split; [apply K|]).
    + left. left. auto.
    + right. split; [exact U|]. eauto.
Qed.
Print Assumptions C20_unit_strings_partial.

(** in an accepted object every restricted unit has this form *)
Theorem C20_verified_units :
  forall E m o k r ref, db_ok E -> rules_tidy E -> dicts_ok o ->
  is_ok (m_res (verify E HRaise m o)) = true ->
  In (k, r) (rules E) -> r_value r = Some [ref] -> endswith "Units" (python_name k) = true ->
  contained o (python_name k) ->
  exists b s, dget (python_name k) (pub o) = Some (VStr b s)
    /\ (s = ref \/ lower s = ref \/ same_units (aliases E) (lower s) ref).
Proof.
  intros E m o k r ref DB RT DO H IR RV U C.
  apply verify_iff_valid in H; [|assumption..]. destruct H as [c [v [cv V]]].
  apply dget_Some_In in C. destruct C as [w G].
  destruct (va_rules _ _ _ _ _ _ V k r IR w G) as [V1 _].
  destruct (V1 _ RV) as [b [s [G' A]]]. exists b, s. split; [exact G'|].
  apply (C20_unit_strings_partial E (python_name k) b s ref U). apply verify_value_iff. eauto.
Qed.
Print Assumptions C20_verified_units.

Definition spherical (u : string) : sofa :=
  put "ListenerPosition_Units" (VStr false u) (put "ListenerPosition_Type" (VStr false "spherical") demo_sofa).

(** /repo/sofar/sofa.py:1478-1481 lists "degree degree metre" as accepted *)
Theorem C20_refuted :
  is_ok (m_res (verify demo HRaise VWrite (spherical "degree degree metre"))) = false
  /\ is_ok (m_res (verify demo HRaise VWrite (spherical "degree, degree, metre"))) = true.
Proof. split; vm_compute; reflexivity. Qed.
Print Assumptions C20_refuted.

Example C20_case :
  is_ok (m_res (verify demo HRaise VRead (spherical "Degrees,degree, METERS"))) = true
  /\ is_ok (m_res (verify demo HRaise VRead (spherical "degree, metre"))) = false.
Proof. split; vm_compute; reflexivity. Qed.

(** ** C21 *)

Theorem C21_restricted_values :
  forall E key v ref,
  verify_value v (Some ref) (aliases E) key = Ok true <->
  exists b s, v = VStr b s /\ allowed E key s ref.
Proof. exact verify_value_iff. Qed.
Print Assumptions C21_restricted_values.

(** verify accepts an object only if all restricted values are allowed, and if
    nothing else is wrong they only need to be allowed *)
Theorem C21_verified_values :
  forall E m o, db_ok E -> rules_tidy E -> dicts_ok o ->
  (is_ok (m_res (verify E HRaise m o)) = true ->
   forall k r ref, In (k, r) (rules E) -> r_value r = Some ref -> contained o (python_name k) ->
   allowed_value E o (python_name k) ref)
  /\ (forall k r ref b s, In (k, r) (rules E) -> r_value r = Some ref ->
      dget (python_name k) (pub o) = Some (VStr b s) -> ~ allowed E (python_name k) s ref ->
      is_ok (m_res (verify E HRaise m o)) = false).
Proof.
  intros E m o DB RT DO.
  assert (F : is_ok (m_res (verify E HRaise m o)) = true ->
   forall k r ref, In (k, r) (rules E) -> r_value r = Some ref -> contained o (python_name k) ->
   allowed_value E o (python_name k) ref).
  { intros H k r ref IR RV C. apply verify_iff_valid in H; [|assumption..]. destruct H as [c [v [cv V]]].
    apply dget_Some_In in C. destruct C as [w G].
    destruct (va_rules _ _ _ _ _ _ V k r IR w G) as [V1 _]. exact (V1 _ RV). }
  split; [exact F|]. intros k r ref b s IR RV G N.
  destruct (is_ok (m_res (verify E HRaise m o))) eqn:H; [|reflexivity]. exfalso. apply N.
  destruct (F eq_refl k r ref IR RV) as [b' [s' [G' A]]]; [apply dget_Some_In; eauto|].
  rewrite G in G'. inversion G'; subst. exact A.
Qed.
Print Assumptions C21_verified_values.

Example C21_case :
  is_ok (m_res (verify demo HRaise VWrite (put "ListenerPosition_Type" (VStr false "Cartesian") demo_sofa))) = true
  /\ is_ok (m_res (verify demo HRaise VWrite (put "GLOBAL_DataType" (VStr false "fir") demo_sofa))) = false
  /\ In ("GLOBAL:DataType", snd (hd ("", Rule None [] None) demo_rules)) (rules demo).
Proof. split; [vm_compute; reflexivity|]. split; [vm_compute; reflexivity|left; reflexivity]. Qed.

(** ** C22 *)

(** Accepted are exactly str and numpy arrays of type 'U'. Missing: arrays of
    type 'S' ([C22_refuted]: no object with such an array is accepted). *)
Theorem C22_string_types_partial :
  forall E key v, type_error E key "string" v = "" <->
  (exists b s, v = VStr b s) \/ exists a, v = VArr a /\ a_kind a = KU.
Proof.
  intros E key v. rewrite type_error_iff. unfold has_type.
  split; [|auto]. intros [[H _]|[[H _]|[_ H]]]; [discriminate..|exact H].
Qed.
Print Assumptions C22_string_types_partial.

Theorem C22_refuted :
  forall E m o k e a cv, db_ok E -> rules_tidy E -> dicts_ok o ->
  convention_of E o cv -> declared cv o k = Some e -> e_type e = "string" ->
  dget k (pub o) = Some (VArr a) -> a_kind a = KS ->
  is_ok (m_res (verify E HRaise m o)) = false.
Proof.
  intros E m o k e a cv DB RT DO CV D T G K.
  destruct (is_ok (m_res (verify E HRaise m o))) eqn:H; [|reflexivity]. exfalso.
  apply verify_iff_valid in H; [|assumption..]. destruct H as [c [v [cv' V]]].
  assert (cv' = cv).
  { destruct CV as [b [c1 [w [ct [G1 [G2 [G3 ->]]]]]]]. destruct V as [[b1 V1] [w1 [V2 PV]] [ct1 [V3 ->]] _ _ _ _ _ _ _ _ _].
    rewrite G1 in V1. rewrite G2 in V2. inversion V1; inversion V2; subst.
    assert (N := proj1 DB). unfold has_file in *.
    apply (In_dget _ _ _ N) in G3. apply (In_dget _ _ _ N) in V3. congruence. }
  subst cv'. destruct (va_type _ _ _ _ _ _ V k _ G) as [e' [D' T']].
  rewrite D in D'. inversion D'; subst e'. rewrite T in T'. unfold has_type in T'.
  destruct T' as [[X _]|[[X _]|[_ [[b [s X]]|[a' [X X']]]]]]; try discriminate.
  inversion X; subst. congruence.
Qed.
Print Assumptions C22_refuted.

Example C22_case :
  is_ok (m_res (verify demo HRaise VWrite with_texts)) = true
  /\ is_ok (m_res (verify demo HRaise VWrite
       (put "SourceDescriptions" (VStr false "loudspeaker") demo_sofa))) = true
  /\ is_ok (m_res (verify demo HRaise VWrite
       (put "SourceDescriptions" (VArr (Arr KS [1; 1] [EByt "loudspeaker"] false)) demo_sofa))) = false.
Proof. repeat split; vm_compute; reflexivity. Qed.

(** ** C23 *)

Lemma contains_self s : contains s s = true.
Proof. rewrite <- (sapp_nil_r s) at 2. apply contains_prefix. Qed.

Theorem C23_reported :
  forall E m o o' ev r, db_ok E -> dicts_ok o -> verify E HRaise m o = (o', ev, Ok r) ->
  forall b c w, dget "GLOBAL_SOFAConventions" (pub o) = Some (VStr b c) ->
  dget "GLOBAL_SOFAConventionsVersion" (pub o) = Some w ->
  (m = VWrite -> dget c (deprecations E) = None)
  /\ (forall new, dget c (deprecations E) = Some new ->
        exists t, In (EvWarn t) ev
          /\ contains (c +++ ", which is deprecated. Use Sofa.upgrade_convention() to upgrade to " +++ new) t = true)
  /\ (forall n, parse_float (py_str E w) = Some n -> dec_ltb n (Dec 1%N 0) = true ->
        exists t, In (EvWarn t) ev
          /\ contains ("Detected preliminary conventions version " +++ py_str E w) t = true).
Proof.
  intros E m o o' ev r DB DO H b c w NM VS.
  destruct (raise_ok_core _ _ _ _ _ _ H) as [o1 [e1 [wt [a [d [R [M [T [_ [OD [D [L [-> _]]]]]]]]]]]]].
  assert (DS := reset_data_same E o). rewrite R in DS.
  change (m_obj (o1, [], Ok tt)) with o1 in DS.
  assert (P : pub o' = pub o) by (rewrite OD; exact (ds_pub _ _ DS)).
  destruct (late_warning _ _ _ _ _ _ L) as [dm [pm [L1 [L2 L3]]]].
  assert (LO : exists w0, late_check E m o' a = Ok ("", w0)) by eauto.
  apply late_ok in LO. destruct LO as [_ [_ [[dm' [L4 L5]] _]]]. rewrite L1 in L4. inversion L4; subst dm'.
  rewrite (deprecation_eq E o c b NM o' P) in L1.
  assert (OI : forall x y : string, Ok x = Ok y -> x = y) by congruence.
  apply OI in L1.
  unfold preliminary_msg, getattr in L2. rewrite P, VS in L2. cbn [rbind] in L2.
  split; [|split].
  - intros ->. specialize (L5 eq_refl). destruct (dget c (deprecations E)); [|reflexivity].
    rewrite L5 in L1. discriminate.
  - intros new Q. rewrite Q in L1.
    destruct m; cbn [m_write] in L3.
    { exfalso. specialize (L5 eq_refl). rewrite L5 in L1. discriminate. }
    exists (warn_head +++ wt). split.
    + apply in_or_app. right. unfold told. destruct (String.eqb_spec wt "") as [W|W]; [|left; reflexivity].
      rewrite W in L3. symmetry in L3. apply sapp_eq_nil in L3. destruct L3 as [L3 _]. rewrite L3 in L1. discriminate.
    + apply contains_app. rewrite L3, <- L1. apply contains_l.
      apply contains_app. apply contains_app. apply contains_app. apply contains_self.
  - intros n PF LT. rewrite PF, LT in L2. apply OI in L2.
    exists (warn_head +++ wt). split.
    + apply in_or_app. right. unfold told. destruct (String.eqb_spec wt "") as [W|W]; [|left; reflexivity].
      rewrite W in L3. symmetry in L3. apply sapp_eq_nil in L3. destruct L3 as [_ L3]. rewrite L3 in L2. discriminate.
    + apply contains_app. rewrite L3, <- L2. apply contains_app. apply contains_app. apply contains_app.
      rewrite <- (sapp_assoc "Detected preliminary conventions version "). apply contains_prefix.
Qed.
Print Assumptions C23_reported.

(** an object of the deprecated demo convention *)
Definition demo_old : sofa :=
  match sofa_init demo "Old" true "0.4" VAuto with (_, Ok o) => o | _ => empty_sofa end.
Example C23_case :
  dget "Old" (deprecations demo) = Some "SimpleFreeFieldHRIR"
  /\ is_ok (m_res (verify demo HRaise VRead demo_old)) = true
  /\ List.length (m_out (verify demo HRaise VRead demo_old)) = 1
  /\ is_ok (m_res (verify demo HRaise VWrite demo_old)) = false.
Proof. repeat split; vm_compute; reflexivity. Qed.
