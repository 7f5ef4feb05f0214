(** verify accepts the valid objects. *)
From Verif Require Import Base PyStr PyNum NdArray Sofa Verify SpecAttr SpecInit SpecVerify
  BaseFacts StrFacts AttrFacts OpFacts InitFacts ProtFacts AddDelFacts MissingFacts CoreFacts
  ValidFacts ShapeFacts RuleFacts.
From Coq Require Import NArith Lia.
Open Scope string_scope.
Open Scope list_scope.

Lemma dims_pure_detect o a d r : dims_pure o = (a, d, Ok r) ->
  exists s, detect o = (s, Ok tt) /\ a = fixed_sizes s.
Proof.
  unfold dims_pure. destruct (detect o) as [s [u|e]]; [|discriminate].
  destruct (check_shapes _ _ _ _ _) as [d' r']. intro H. inversion H; subst.
  exists s. destruct u. auto.
Qed.

Lemma core_ok norm E m keys o w :
  m_res (core norm E m keys o) = Ok ("", w) <->
  name_errors o keys = Ok "" /\ snd (cust_check norm o) = Ok ""
  /\ exists a d, dims_pure o = (a, d, Ok "") /\ late_check E m (set_dims o a d) a = Ok ("", w).
Proof.
  unfold core. destruct (name_errors o keys) as [nerr|e].
  2:{ cbn. split; [discriminate|]. intros [H _]. discriminate. }
  destruct (cust_check norm o) as [ev [cerr|e]]; cbn [snd].
  2:{ cbn. split; [discriminate|]. intros [_ [H _]]. discriminate. }
  destruct (dims_pure o) as [[a d] [serr|e]] eqn:D; unfold m_res; cbn [snd rbind].
  2:{ split; [discriminate|]. intros [_ [_ [a' [d' [H _]]]]]. discriminate. }
  destruct (late_check E m (set_dims o a d) a) as [[e w']|x] eqn:L; cbn [rbind fst snd].
  2:{ split; [discriminate|]. intros [_ [_ [a' [d' [H1 H2]]]]]. inversion H1; subst. congruence. }
  split.
  - intro H. inversion H as [[H1 H2]]. apply sapp_eq_nil in H1. destruct H1 as [-> H1].
    apply sapp_eq_nil in H1. destruct H1 as [-> H1]. apply sapp_eq_nil in H1. destruct H1 as [H1 ->].
    apply section_nil in H1; [|discriminate]. subst.
    split; [reflexivity|]. split; [reflexivity|]. eauto.
  - intros [H1 [H2 [a' [d' [H3 H4]]]]]. inversion H1; inversion H2; inversion H3; subst.
    rewrite L in H4. inversion H4; subst. reflexivity.
Qed.

Lemma late_ok E m o a : 
  (exists w, late_check E m o a = Ok ("", w)) <->
  (forall kr, In kr (rules E) -> check_rule E o a kr = Ok "")
  /\ (m = VWrite -> check_units o = Ok "")
  /\ (exists d, deprecation_msg E o = Ok d /\ (m = VWrite -> d = ""))
  /\ (exists p, preliminary_msg E o = Ok p).
Proof.
  unfold late_check. rewrite <- rconcat_nil.
  destruct (rconcat (check_rule E o a) (rules E)) as [rerr|e]; cbn [rbind].
  2:{ split; [intros [w H]; discriminate|]. intros [H _]. discriminate. }
  destruct (if m_write m then check_units o else Ok "") as [uerr|e] eqn:U; cbn [rbind].
  2:{ split; [intros [w H]; discriminate|]. intros [_ [H _]]. destruct m; cbn in U; [|discriminate].
      rewrite (H eq_refl) in U. discriminate. }
  destruct (deprecation_msg E o) as [d|e]; cbn [rbind].
  2:{ split; [intros [w H]; discriminate|]. intros [_ [_ [[d [H _]] _]]]. discriminate. }
  destruct (preliminary_msg E o) as [p|e]; cbn [rbind].
  2:{ split; [intros [w H]; discriminate|]. intros [_ [_ [_ [p H]]]]. discriminate. }
  split.
  - intros [w H]. assert (H1 := f_equal (fun x => match x with Ok y => fst y | Err _ => "" end) H).
    cbn [fst] in H1. clear H. apply sapp_eq_nil in H1. destruct H1 as [H1 H3].
    apply section_nil in H1; [|discriminate]. apply sapp_eq_nil in H1. destruct H1 as [-> ->].
    split; [reflexivity|]. split; [intros ->; exact U|]. split; [|eauto].
    exists d. split; [reflexivity|]. intros ->. exact H3.
  - intros [H1 [H2 [[d' [H3 H4]] _]]]. inversion H1; subst. inversion H3; subst. eexists.
    f_equal. f_equal. apply sapp_eq_nil. split.
    + apply section_nil; [discriminate|]. apply sapp_eq_nil. split; [reflexivity|].
      destruct m; cbn in U; [|inversion U; reflexivity]. rewrite (H2 eq_refl) in U. inversion U. reflexivity.
    + destruct m; cbn; [apply H4|]; reflexivity.
Qed.

Section Core.
Context (E : env) (m : vmode) (cv : convention) (o o1 : sofa) (R : reset_to cv o o1)
  (DB : db_ok E) (RT : rules_tidy E) (DO : dicts_ok o) (c v : string) (b : bool)
  (NM : dget "GLOBAL_SOFAConventions" (pub o) = Some (VStr b c))
  (VS : exists w, dget "GLOBAL_SOFAConventionsVersion" (pub o) = Some w /\ py_str E w = v)
  (HF : exists content, has_file E c v content /\ cv = sofar_keys content).

Let RP := rt_pub _ _ _ R.

Lemma types_no_lists :
  (forall k w, dget k (pub o) = Some w -> exists e, declared cv o k = Some e /\ has_type (e_type e) w) ->
  no_lists o.
Proof.
  intros H k w G. destruct (H k w G) as [e [_ T]]. unfold has_type in T.
  destruct w as [| | |l]; try reflexivity. exfalso.
  destruct T as [[_ [x [y T]]]|[[_ [[z T]|[[f T]|[x [T _]]]]]|[_ [[x [y T]]|[x [T _]]]]]]; discriminate.
Qed.

Lemma deprecation_eq : forall o2, pub o2 = pub o ->
  deprecation_msg E o2 = Ok (match dget c (deprecations E) with
          | Some new => "Detected deprecations:" +++ nl +++ "- GLOBAL_SOFAConventions is "
              +++ c +++ ", which is deprecated. Use Sofa.upgrade_convention() to upgrade to "
              +++ new
          | None => ""
          end).
Proof. intros o2 P. unfold deprecation_msg, getattr. rewrite P, NM. reflexivity. Qed.

Lemma preliminary_eq : forall o2, pub o2 = pub o -> exists d, parse_float v = Some d /\
  preliminary_msg E o2 = Ok (if dec_ltb d (Dec 1%N 0)
          then nl +++ nl +++ "Detected preliminary conventions version "
               +++ v +++ ":" +++ nl
               +++ " - Upgrade data to version >= 1.0 if possible. Preliminary conventions might change in the future, which could invalidate data that was written before the changes."
          else "").
Proof.
  intros o2 P. unfold preliminary_msg, getattr. rewrite P. destruct VS as [w [V PV]]. rewrite V.
  cbn [rbind]. rewrite PV. destruct HF as [content [HF' _]].
  destruct (has_file_version E c v content DB HF') as [_ [FS _]].
  unfold float_str in FS. destruct (parse_float v) as [d|]; [|discriminate]. exists d. auto.
Qed.

Lemma rest_iff :
  is_ok (m_res (verify_rest (normative_keys E) E HRaise m o1)) = true <-> valid_for E m o c v cv.
Proof.
  rewrite rest_raise_ok.
  rewrite (missing_iff cv o o1 R), (types_iff E cv o o1 R).
  assert (CO : (exists w, m_res (core (normative_keys E) E m (dkeys (pub o1)) o1) = Ok ("", w)) <->
     name_errors o1 (dkeys (pub o1)) = Ok "" /\ snd (cust_check (normative_keys E) o1) = Ok ""
     /\ exists a d, dims_pure o1 = (a, d, Ok "") /\ exists w, late_check E m (set_dims o1 a d) a = Ok ("", w)).
  { split.
    - intros [w H]. apply core_ok in H. destruct H as [H1 [H2 [a [d [H3 H4]]]]]. eauto 10.
    - intros [H1 [H2 [a [d [H3 [w H4]]]]]]. exists w. apply core_ok. eauto 10. }
  rewrite CO. clear CO.
  rewrite (custom_iff E cv o o1 R c v b DB HF NM VS).
  split.
  - intros [M [T [NE [CU [a [d [DP L]]]]]]].
    assert (K : forall k, contained o k -> declared cv o k <> None).
    { intros k I. apply dget_Some_In in I. destruct I as [w G]. destruct (T k w G) as [e [D _]]. congruence. }
    assert (NL := types_no_lists T).
    destruct (dims_pure_detect _ _ _ _ DP) as [s [HD ->]].
    assert (SZ := sizes_iff cv o o1 R DO NL s HD).
    apply late_ok in L. destruct L as [L1 [L2 [[dm [L3 L4]] _]]].
    constructor; eauto.
    + apply (names_iff cv o o1 R K). exact NE.
    + apply (sized_iff cv o o1 R DO NL). eauto.
    + apply (shapes_iff cv o o1 R DO NL s HD). eauto.
    + intros k r I. apply (check_rule_iff E cv o (set_dims o1 (fixed_sizes s) d) (fixed_sizes s) RP SZ k r I RT).
      apply L1. exact I.
    + intro MW. apply (units_case_iff o (set_dims o1 (fixed_sizes s) d) RP (proj1 DO)). auto.
    + intro MW. specialize (L4 MW). rewrite (deprecation_eq (set_dims o1 (fixed_sizes s) d) RP) in L3.
      inversion L3 as [X]. destruct (dget c (deprecations E)) as [new|]; [|reflexivity].
      rewrite L4 in X. discriminate.
  - intros [V1 V2 V3 V4 V5 V6 V7 V8 V9 V10 V11 V12].
    assert (K : forall k, contained o k -> declared cv o k <> None).
    { intros k I. apply dget_Some_In in I. destruct I as [w G]. destruct (V5 k w G) as [e [D _]]. congruence. }
    assert (NL := types_no_lists V5).
    split; [exact V4|]. split; [exact V5|]. split; [apply (names_iff cv o o1 R K); exact V6|].
    split; [exact V7|].
    apply (sized_iff cv o o1 R DO NL) in V8. destruct V8 as [s HD].
    assert (SZ := sizes_iff cv o o1 R DO NL s HD).
    apply (shapes_iff cv o o1 R DO NL s HD) in V9. destruct V9 as [d DP].
    exists (fixed_sizes s), d. split; [exact DP|]. apply late_ok. split; [|split; [|split]].
    + intros [k r] I. apply (check_rule_iff E cv o (set_dims o1 (fixed_sizes s) d) (fixed_sizes s) RP SZ k r I RT).
      auto.
    + intro MW. apply (units_case_iff o (set_dims o1 (fixed_sizes s) d) RP (proj1 DO)). exact (V11 MW).
    + rewrite (deprecation_eq (set_dims o1 (fixed_sizes s) d) RP). eexists. split; [reflexivity|].
      intro MW. rewrite (V12 MW). reflexivity.
    + destruct (preliminary_eq (set_dims o1 (fixed_sizes s) d) RP) as [dd [_ P]]. rewrite P. eauto.
Qed.
End Core.

Lemma verify_iff_valid E m o : db_ok E -> rules_tidy E -> dicts_ok o ->
  (is_ok (m_res (verify E HRaise m o)) = true <-> valid E m o).
Proof.
  intros DB RT DO. unfold verify. destruct (reset_iff E o DB DO) as [RI1 RI2]. split.
  - intro H. unfold verify in H. rewrite verify_gen_eq in H.
    destruct (reset_convention_cases E o) as [[e RE]|[c [b [v [cv [_ [_ [_ [_ RE]]]]]]]]].
    + rewrite (bind_fails _ _ _ _ _ _ RE) in H. discriminate.
    + rewrite (bind_silent _ _ _ _ _ RE) in H.
      destruct (RI1 _ RE) as [b' [c' [w [content [H1 [H2 [H3 H4]]]]]]].
      exists c', (py_str E w), (sofar_keys content).
      eapply (rest_iff E m _ o _ H4 DB RT DO c' (py_str E w) b' H1); eauto.
  - intros [c [v [cv V]]]. assert (V' := V). destruct V' as [[b V1] [w [V2 PV]] [content [V3 ->]] _ _ _ _ _ _ _ _ _].
    subst v. destruct (RI2 b c w content V1 V2 V3) as [o1 RE]. rewrite verify_gen_eq.
    rewrite (bind_silent _ _ _ _ _ RE).
    destruct (RI1 _ RE) as [b' [c' [w' [content' [H1 [H2 [H3 H4]]]]]]].
    rewrite V1 in H1. rewrite V2 in H2. inversion H1; inversion H2; subst b' c' w'.
    assert (CE : content' = content).
    { assert (N := proj1 DB). unfold has_file in *.
      apply (In_dget _ _ _ N) in V3. apply (In_dget _ _ _ N) in H3. congruence. }
    subst content'.
    eapply (rest_iff E m _ o _ H4 DB RT DO c (py_str E w) b V1); eauto.
Qed.

(** ** The issues that verify finds, independent of their handling *)
Definition checked norm (E : env) (m : vmode) (ign : bool) (pe pw : string)
    (keys : list string) (o : sofa) : sofa * list event * res (string * string) :=
  match type_errors E o keys with
  | Err e => (o, [], Err e)
  | Ok terr =>
      let err := pe +++ section msg_type terr in
      if negb (String.eqb err "") && negb ign then (o, [], Ok (err, ""))
      else let '(o1, ev, r) := core norm E m keys o in
           (o1, ev, let? ew := r in Ok (err +++ fst ew, pw +++ snd ew))
  end.

Lemma handle_other h w e o : h <> HRaise ->
  handle_issues (warn_head +++ w) (err_head +++ e) h o
  = (o, told h w e, Ok (negb (String.eqb e ""),
      if negb (String.eqb w "") && negb (String.eqb e "")
      then Some ((err_head +++ e) +++ nl +++ (warn_head +++ w))
      else if negb (String.eqb w "") then Some (warn_head +++ w)
      else if negb (String.eqb e "") then Some (err_head +++ e) else None)).
Proof.
  intro N. unfold handle_issues. rewrite !eqb_head.
  destruct h; try congruence;
  destruct (String.eqb_spec w "") as [->|W], (String.eqb_spec e "") as [->|E'];
    unfold told; rewrite ?(eqb_neq_s _ _ W), ?(eqb_neq_s _ _ E'); reflexivity.
Qed.

Lemma finish_eq h w e o : (h = HOther -> startswith "Detected data of wrong type:" e = false) ->
  finish h w e o = (o, told h w e, answer h w e).
Proof.
  intro NT. destruct h; [apply finish_raise| | |reflexivity|].
  - unfold finish. cbn [h_ignore]. erewrite bind_does by (apply handle_other; discriminate).
    cbn [h_return fst snd]. rewrite andb_false_r. unfold ret, m_obj, m_out, m_res. cbn [fst snd].
    rewrite app_nil_r. reflexivity.
  - unfold finish. cbn [h_ignore]. erewrite bind_does by (apply handle_other; discriminate).
    cbn [h_return fst snd]. unfold ret, m_obj, m_out, m_res. cbn [fst snd]. rewrite app_nil_r.
    rewrite andb_true_r. unfold answer.
    destruct (String.eqb e "") eqn:E1, (String.eqb w "") eqn:W1; cbn [negb andb];
      rewrite ?sapp_nil_r, ?sapp_assoc; reflexivity.
  - unfold finish. cbn [h_ignore]. erewrite bind_does by (apply handle_other; discriminate).
    cbn [h_return fst snd]. rewrite andb_false_r. unfold ret, m_obj, m_out, m_res, answer. cbn [fst snd].
    rewrite (NT eq_refl), app_nil_r. reflexivity.
Qed.

Lemma early_eq h e o : h <> HIgnore -> e <> "" -> (h = HOther -> startswith "Detected data of wrong type:" e = true) ->
  early h e o = (o, told h "" e, answer h "" e).
Proof.
  intros NI N ET. assert (Q := eqb_neq_s _ _ N).
  unfold early. change warn_head with (warn_head +++ "") at 1.
  destruct h; try congruence.
  - change (early HRaise e o = (o, told HRaise "" e, answer HRaise "" e)).
    rewrite (early_raise e o N). unfold told, answer, warned. rewrite Q. reflexivity.
  - erewrite bind_does by (apply handle_other; discriminate).
    unfold ret, m_obj, m_out, m_res. cbn [fst snd h_print]. rewrite app_nil_r. reflexivity.
  - erewrite bind_does by (apply handle_other; discriminate).
    unfold ret, m_obj, m_out, m_res. cbn [fst snd h_print]. rewrite app_nil_r.
    unfold answer. rewrite Q. cbn [negb andb String.eqb]. rewrite sapp_nil_r. reflexivity.
  - erewrite bind_does by (apply handle_other; discriminate).
    unfold ret, m_obj, m_out, m_res. cbn [fst snd h_print]. rewrite app_nil_r.
    unfold answer. rewrite Q, (ET eq_refl). cbn [negb andb String.eqb]. reflexivity.
Qed.

(** what verify does with the errors and warnings *)
Definition conclude h (w e : string) : M (option string) := fun o => (o, told h w e, answer h w e).

(** the texts of the later checks are not mistaken for data of the wrong type *)
Definition later (x : string) : Prop :=
  x = "" \/ exists hd r, x = hd +++ r /\ In hd [msg_orphan; msg_plain; msg_variable; msg_reserved; msg_custom; msg_shape; msg_rules;
                                               "Detected deprecations:"].
Lemma later_app x y : later x -> later y -> later (x +++ y).
Proof.
  intros [->|[hd [r [-> I]]]] L; [exact L|]. right. exists hd, (r +++ y). split; [apply sapp_assoc|exact I].
Qed.
Lemma later_section hd x : In hd [msg_orphan; msg_plain; msg_variable; msg_reserved; msg_custom; msg_shape; msg_rules;
    "Detected deprecations:"] -> later (section hd x).
Proof. intro I. unfold section. destruct (String.eqb x ""); [left; reflexivity|right; eauto]. Qed.
Lemma later_start x : later x -> startswith "Detected data of wrong type:" x = false.
Proof.
  intros [->|[hd [r [-> I]]]]; [reflexivity|]. cbn [In] in I.
  repeat (destruct I as [<-|I]; [reflexivity|]). destruct I.
Qed.
Lemma core_later norm E m keys o o1 ev e w : core norm E m keys o = (o1, ev, Ok (e, w)) -> later e.
Proof.
  unfold core. destruct (name_errors o keys) as [ne|] eqn:NE; [|intro H; discriminate H].
  destruct (cust_check norm o) as [ev2 [ce|]] eqn:CC; [|intro H; discriminate H].
  destruct (dims_pure o) as [[a d] rs]. cbv zeta. intro H. apply (f_equal snd) in H. cbn [snd] in H.
  apply rbind_Ok in H. destruct H as [se [_ H]]. apply rbind_Ok in H. destruct H as [[le lw] [LC H]]. injection H as <- _.
  unfold name_errors in NE. cbv zeta in NE.
  apply rbind_Ok in NE. destruct NE as [e1 [_ NE]]. apply rbind_Ok in NE. destruct NE as [e2 [_ NE]].
  apply rbind_Ok in NE. destruct NE as [e3 [_ NE]]. apply rbind_Ok in NE. destruct NE as [e4 [_ NE]]. injection NE as <-.
  unfold late_check in LC. apply rbind_Ok in LC. destruct LC as [re [_ LC]].
  apply rbind_Ok in LC. destruct LC as [ue [_ LC]]. apply rbind_Ok in LC. destruct LC as [dm [DM LC]].
  apply rbind_Ok in LC. destruct LC as [pm [_ LC]]. injection LC as <- _. cbn [fst].
  assert (LD : later dm).
  { unfold deprecation_msg in DM. apply rbind_Ok in DM. destruct DM as [c [_ DM]]. destruct c; try discriminate DM.
    injection DM as <-. destruct (dget _ (deprecations E)); [right|left; reflexivity]. exists "Detected deprecations:". eexists. split; [reflexivity|].
    cbn [In]. tauto. }
  assert (LC : later ce).
  { unfold cust_check in CC. destruct (custom o) eqn:CU; [|injection CC as _ <-; left; reflexivity].
    destruct (getattr o "GLOBAL_SOFAConventions"); [|discriminate CC]. destruct (getattr o "GLOBAL_SOFAConventionsVersion"); [|discriminate CC].
    apply (f_equal snd) in CC. cbn [snd] in CC. apply rbind_Ok in CC. destruct CC as [nk [_ CC]]. injection CC as <-.
    unfold custom_errors. rewrite CU. apply later_section. cbn [In]. tauto. }
  assert (LS : forall hd x, In hd [msg_orphan; msg_plain; msg_variable; msg_reserved; msg_custom; msg_shape; msg_rules;
    "Detected deprecations:"] -> later (section hd x)) by exact later_section.
  repeat apply later_app; try (apply LS; cbn [In]; tauto); try exact LC.
  destruct (m_write m); [exact LD|left; reflexivity].
Qed.

Lemma rest_checked norm E h m o :
  verify_rest norm E h m o =
  (do_ when (negb (h_raise h)) (add_defaults (missing o));
   do ew <- checked norm E m (h_ignore h) (if h_raise h then section msg_missing (miss_text o) else "")
              (if h_raise h then "" else section msg_added (miss_text o)) (dkeys (pub o));
   conclude h (snd ew) (fst ew)) o.
Proof.
  rewrite verify_rest_eq. apply bind_ext. intros o2 e2 u _. rewrite bind_get.
  match goal with |- _ = bind ?b _ _ => set (c2 := b) end.
  assert (C2 : c2 o2 = c2 o2) by reflexivity. unfold c2 at 2 in C2. unfold checked in C2.
  unfold type_text.
  destruct (type_errors E o2 (dkeys (pub o))) as [terr|e];
    [rewrite bind_lift | rewrite bind_lift_err, (bind_fails _ _ _ _ _ _ C2); reflexivity].
  cbv zeta in *. set (err := _ +++ section msg_type terr) in *.
  destruct (negb (String.eqb err "") && negb (h_ignore h)) eqn:B.
  - rewrite (bind_silent _ _ _ _ _ C2). cbn [fst snd]. apply andb_true_iff in B. destruct B as [B1 B2].
    apply early_eq; [destruct h; discriminate || discriminate B2| |].
    { destruct (String.eqb_spec err "") as [Q|Q]; [discriminate|exact Q]. }
    intros ->. unfold err, section in *. cbn [h_raise append] in *. destruct (String.eqb terr ""); [discriminate B1|reflexivity].
  - destruct (core norm E m (dkeys (pub o)) o2) as [[o3 ev] [[e w]|x]] eqn:CO; cbn [rbind fst snd] in C2.
    + rewrite (bind_does _ _ _ _ _ _ CO), (bind_does _ _ _ _ _ _ C2). cbn [fst snd]. rewrite finish_eq; [reflexivity|].
      intros ->. cbn [h_ignore negb] in B. rewrite andb_true_r in B. apply negb_false_iff, String.eqb_eq in B. rewrite B.
      apply later_start. apply (core_later _ _ _ _ _ _ _ _ _ CO).
    + rewrite (bind_fails _ _ _ _ _ _ CO), (bind_fails _ _ _ _ _ _ C2). reflexivity.
Qed.
