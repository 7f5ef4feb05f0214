(** Modes, repeated calls and added data of verify; get_dimension. *)
From Verif Require Import Base PyStr PyNum NdArray Sofa Verify Upgrade SpecAttr SpecInit SpecVerify
  BaseFacts StrFacts AttrFacts OpFacts InitFacts ProtFacts AddDelFacts MissingFacts CoreFacts
  ValidFacts ShapeFacts RuleFacts VerifyFacts DictFacts.
From Coq Require Import NArith Lia RelationClasses.
Open Scope string_scope.
Open Scope list_scope.

Lemma reset_none_or E o :
  (exists x, reset_convention E o = (o, [], Err x))
  \/ exists o1, reset_convention E o = (o1, [], Ok tt).
Proof.
  destruct (reset_convention_cases E o) as [H|[c [b [v [cv [_ [_ [_ [_ RE]]]]]]]]]; [left; exact H|].
  right. eauto.
Qed.

Lemma complete_missing E o o1 : db_ok E -> dicts_ok o -> complete E o ->
  reset_convention E o = (o1, [], Ok tt) -> missing o1 = [].
Proof.
  intros DB DO C R. destruct (reset_iff E o DB DO) as [RI _].
  destruct (RI _ R) as [b [c [w [content [H1 [H2 [H3 H4]]]]]]].
  apply (missing_iff _ _ _ H4). intros k e D M. apply (C (sofar_keys content) k e); [|exact D|exact M].
  exists b, c, w, content. auto.
Qed.

(** ** One description for all modes *)
Definition outcome h (t : sofa * list event * res (string * string))
  : sofa * list event * res (option string) :=
  match t with
  | (o, ev, Err x) => (o, ev, Err x)
  | (o, ev, Ok (e, w)) => (o, ev ++ told h w e, answer h w e)
  end.

Lemma bind_finish h (c : M (string * string)) o :
  (do ew <- c; conclude h (snd ew) (fst ew)) o = outcome h (c o).
Proof.
  unfold bind, outcome. destruct (c o) as [[o1 ev] [[e w]|x]]; [|reflexivity].
  reflexivity.
Qed.

Lemma rest_complete norm E h m o : missing o = [] ->
  verify_rest norm E h m o
  = outcome h (checked norm E m (h_ignore h) "" "" (dkeys (pub o)) o).
Proof.
  intro M. rewrite rest_checked. rewrite M. unfold miss_text. rewrite M. cbn [sconcat].
  assert (A : forall hh, when (negb (h_raise hh)) (add_defaults []) o = (o, [], Ok tt)).
  { intro hh. destruct (h_raise hh); reflexivity. }
  rewrite (bind_silent _ _ _ _ _ (A h)).
  replace (if h_raise h then section msg_missing "" else "") with "" by (destruct (h_raise h); reflexivity).
  replace (if h_raise h then "" else section msg_added "") with "" by (destruct (h_raise h); reflexivity).
  apply bind_finish.
Qed.

Lemma checked_quiet norm E m ign pe pw keys o : custom o = None ->
  m_out (checked norm E m ign pe pw keys o) = [].
Proof.
  intro C. unfold checked. destruct (type_errors E o keys) as [t|x]; [|reflexivity].
  cbv zeta. destruct (_ && _); [reflexivity|].
  unfold core. destruct (name_errors o keys) as [ne|]; [|reflexivity].
  unfold cust_check. rewrite C. destruct (dims_pure o) as [[a d] r]. reflexivity.
Qed.

Lemma verify_complete E m o : db_ok E -> dicts_ok o -> complete E o ->
  exists t, (forall h, h <> HIgnore -> verify E h m o = outcome h t)
    /\ (custom o = None -> m_out t = []).
Proof.
  intros DB DO C. unfold verify.
  destruct (reset_none_or E o) as [[x R]|[o1 R]].
  - exists (o, [], Err x). split; [|reflexivity]. intros h _. rewrite verify_gen_eq.
    rewrite (bind_fails _ _ _ _ _ _ R). reflexivity.
  - exists (checked (normative_keys E) E m false "" "" (dkeys (pub o1)) o1). split.
    + intros h NI. rewrite verify_gen_eq, (bind_silent _ _ _ _ _ R).
      rewrite rest_complete by (eapply complete_missing; eassumption).
      destruct h; try congruence; reflexivity.
    + intro CN. apply checked_quiet. destruct (reset_iff E o DB DO) as [RI _].
      destruct (RI _ R) as [b [c [w [content [_ [_ [_ H4]]]]]]].
      rewrite (rt_custom _ _ _ H4), CN. reflexivity.
Qed.

Lemma verify_ignore E m o : db_ok E -> dicts_ok o -> complete E o ->
  exists t, verify E HIgnore m o = outcome HIgnore t /\ (custom o = None -> m_out t = []).
Proof.
  intros DB DO C. unfold verify. rewrite verify_gen_eq.
  destruct (reset_none_or E o) as [[x R]|[o1 R]].
  - exists (o, [], Err x). rewrite (bind_fails _ _ _ _ _ _ R). split; reflexivity.
  - rewrite (bind_silent _ _ _ _ _ R). rewrite rest_complete by (eapply complete_missing; eassumption).
    eexists. split; [reflexivity|]. intro CN. apply checked_quiet.
    destruct (reset_iff E o DB DO) as [RI _].
    destruct (RI _ R) as [b [c [w [content [_ [_ [_ H4]]]]]]].
    rewrite (rt_custom _ _ _ H4), CN. reflexivity.
Qed.

(** ** Calling verify again *)
Lemma dims_pure_irrel o a d : dims_pure (set_dims o a d) = dims_pure o.
Proof.
  destruct o as [p c cu r b d0 a0]. unfold dims_pure, set_dims, with_prot, with_api, with_dims.
  cbn [pub conv custom ro prot dims api].
  change (detect (Sofa p c cu r true (Some d) (Some a))) with (detect (Sofa p c cu r b d0 a0)).
  change (dim_keys (Sofa p c cu r true (Some d) (Some a))) with (dim_keys (Sofa p c cu r b d0 a0)).
  destruct (detect (Sofa p c cu r b d0 a0)) as [s [u|x]]; [|reflexivity].
  rewrite (check_shapes_irrel p c cu r r true b (Some d) d0 (Some a) a0). reflexivity.
Qed.

Lemma core_stable norm E m keys o o1 ev r :
  core norm E m keys o = (o1, ev, r) -> core norm E m keys o1 = (o1, ev, r).
Proof.
  intro H. assert (H' := H). unfold core in H.
  destruct (name_errors o keys) as [nerr|x] eqn:NE; [|inversion H; subst; exact H'].
  destruct (cust_check norm o) as [ev' [cerr|x]] eqn:CC; [|inversion H; subst; exact H'].
  destruct (dims_pure o) as [[a d] rr] eqn:D. inversion H; subst.
  unfold core. change (name_errors (set_dims o a d) keys) with (name_errors o keys). rewrite NE.
  change (cust_check norm (set_dims o a d)) with (cust_check norm o). rewrite CC.
  rewrite dims_pure_irrel, D. reflexivity.
Qed.

Lemma core_obj norm E m keys o o1 ev r : core norm E m keys o = (o1, ev, r) ->
  o1 = o \/ exists a d, o1 = set_dims o a d.
Proof.
  intro H. unfold core in H.
  destruct (name_errors o keys) as [nerr|x]; [|inversion H; subst; auto].
  destruct (cust_check norm o) as [ev' [cerr|x]]; [|inversion H; subst; auto].
  destruct (dims_pure o) as [[a d] rr]. inversion H; subst. eauto.
Qed.

Lemma checked_stable norm E m ign pe pw keys o o1 ev r :
  checked norm E m ign pe pw keys o = (o1, ev, r) ->
  (o1 = o \/ exists a d, o1 = set_dims o a d)
  /\ checked norm E m ign pe pw keys o1 = (o1, ev, r).
Proof.
  intro H. assert (H' := H). unfold checked in H.
  destruct (type_errors E o keys) as [t|x] eqn:T; [|inversion H; subst; auto].
  cbv zeta in H. destruct (_ && _) eqn:B; [inversion H; subst; auto|].
  destruct (core norm E m keys o) as [[o2 ev2] r2] eqn:CO. inversion H; subst.
  assert (O1 := core_obj _ _ _ _ _ _ _ _ CO). split; [exact O1|].
  unfold checked.
  assert (T1 : type_errors E o1 keys = Ok t).
  { destruct O1 as [->|[a [d ->]]]; exact T. }
  rewrite T1. cbv zeta. rewrite B. rewrite (core_stable _ _ _ _ _ _ _ _ CO). reflexivity.
Qed.

Lemma with_conv_same o : with_conv o (conv o) = o.
Proof. destruct o; reflexivity. Qed.

Lemma reset_again E o o1 o2 : reset_convention E o = (o1, [], Ok tt) ->
  (o2 = o1 \/ exists a d, o2 = set_dims o1 a d) -> reset_convention E o2 = (o2, [], Ok tt).
Proof.
  intros R O2.
  assert (DS := reset_data_same E o). rewrite R in DS. cbn in DS.
  assert (P : pub o2 = pub o).
  { rewrite <- (ds_pub _ _ DS). destruct O2 as [->|[a [d ->]]]; reflexivity. }
  assert (CU : custom o2 = custom o1) by (destruct O2 as [->|[a [d ->]]]; reflexivity).
  assert (CV : conv o1 = conv o2) by (destruct O2 as [->|[a [d ->]]]; reflexivity).
  rewrite (reset_eq E o o1 R o2 P CU), CV, with_conv_same. reflexivity.
Qed.

Lemma verify_twice E h m o : db_ok E -> dicts_ok o -> complete E o ->
  verify E h m (m_obj (verify E h m o)) = verify E h m o.
Proof.
  intros DB DO C. unfold verify. rewrite (verify_gen_eq _ E h m o).
  destruct (reset_none_or E o) as [[x R]|[o1 R]].
  - rewrite (bind_fails _ _ _ _ _ _ R). cbn [m_obj fst].
    rewrite (verify_gen_eq _ E h m o), (bind_fails _ _ _ _ _ _ R). reflexivity.
  - assert (M := complete_missing _ _ _ DB DO C R).
    rewrite (bind_silent _ _ _ _ _ R). rewrite rest_complete by exact M.
    destruct (checked (normative_keys E) E m (h_ignore h) "" "" (dkeys (pub o1)) o1) as [[o2 ev] r] eqn:CK.
    destruct (checked_stable _ _ _ _ _ _ _ _ _ _ _ CK) as [O2 CK2].
    assert (MO : m_obj (outcome h (o2, ev, r)) = o2) by (destruct r as [[e w]|x]; reflexivity).
    rewrite MO. rewrite verify_gen_eq. rewrite (bind_silent _ _ _ _ _ (reset_again E o o1 o2 R O2)).
    assert (M2 : missing o2 = []) by (destruct O2 as [->|[a [d ->]]]; exact M).
    assert (K2 : dkeys (pub o2) = dkeys (pub o1)) by (destruct O2 as [->|[a [d ->]]]; reflexivity).
    rewrite rest_complete by exact M2. rewrite K2, CK2. reflexivity.
Qed.

Lemma verify_raise_twice E m o : 
  verify E HRaise m (m_obj (verify E HRaise m o)) = verify E HRaise m o.
Proof.
  unfold verify. rewrite (verify_gen_eq _ E HRaise m o).
  destruct (reset_none_or E o) as [[x R]|[o1 R]].
  - rewrite (bind_fails _ _ _ _ _ _ R). cbn [m_obj fst].
    rewrite (verify_gen_eq _ E HRaise m o), (bind_fails _ _ _ _ _ _ R). reflexivity.
  - rewrite (bind_silent _ _ _ _ _ R). 
    assert (G : forall oo, verify_rest (normative_keys E) E HRaise m oo
      = outcome HRaise (checked (normative_keys E) E m false (section msg_missing (miss_text oo)) "" (dkeys (pub oo)) oo)).
    { intro oo. rewrite rest_checked. cbn [h_raise h_ignore negb when]. rewrite bind_ret. apply bind_finish. }
    rewrite G.
    destruct (checked _ E m false _ "" (dkeys (pub o1)) o1) as [[o2 ev] r] eqn:CK.
    destruct (checked_stable _ _ _ _ _ _ _ _ _ _ _ CK) as [O2 CK2].
    assert (MO : m_obj (outcome HRaise (o2, ev, r)) = o2) by (destruct r as [[e w]|x]; reflexivity).
    rewrite MO. rewrite verify_gen_eq. rewrite (bind_silent _ _ _ _ _ (reset_again E o o1 o2 R O2)).
    assert (M2 : miss_text o2 = miss_text o1) by (destruct O2 as [->|[a [d ->]]]; reflexivity).
    assert (K2 : dkeys (pub o2) = dkeys (pub o1)) by (destruct O2 as [->|[a [d ->]]]; reflexivity).
    rewrite G, M2, K2, CK2. reflexivity.
Qed.

(** ** Data added by verify *)
Lemma add_defaults_pub l : forall o k,
  dget k (pub (m_obj (add_defaults l o))) = dget k (pub o)
  \/ exists e w, In (k, e) l /\ normalize (e_default e) = Ok w
       /\ dget k (pub (m_obj (add_defaults l o))) = Some w.
Proof.
  induction l as [|[j e] l IH]; intros o k; [left; reflexivity|].
  unfold add_defaults in *. cbn [mfor fst snd].
  set (f := fun kv : string * entry => _) in *.
  rewrite m_obj_bind.
  set (o1 := m_obj (bind (set_protected false) (fun _ => bind (set_attr j (e_default e)) (fun _ => set_protected true)) o)).
  assert (P1 : dget k (pub o1) = dget k (pub o)
     \/ (k = j /\ exists w, normalize (e_default e) = Ok w /\ dget k (pub o1) = Some w)).
  { unfold o1. rewrite m_obj_bind. cbn [set_protected modify]. rewrite m_obj_bind.
    destruct (set_attr_cases j (e_default e) (with_prot o false)) as [[x H]|[[bb [_ [_ H]]]|[w [N [_ [H _]]]]]];
      rewrite H; unfold m_obj; cbn [fst snd pub with_pub with_prot set_protected modify]; [auto|auto|].
    rewrite dget_dset. destruct (String.eqb_spec k j) as [->|]; [right; eauto|left; reflexivity]. }
  assert (FB : f (j, e) o = bind (set_protected false) (fun _ => bind (set_attr j (e_default e)) (fun _ => set_protected true)) o) by reflexivity.
  assert (O1 : m_obj (f (j, e) o) = o1) by (rewrite FB; reflexivity).
  destruct (f (j, e) o) as [[o2 ev] [u|x]]; unfold m_obj in O1; cbn [fst] in O1; subst o2; rewrite <- FB.
  - destruct (IH o1 k) as [H|[e' [w [H1 [H2 H3]]]]].
    + destruct P1 as [P1|[-> [w [P1 P2]]]].
      * left. exact (eq_trans H P1).
      * right. exists e, w. split; [left; reflexivity|]. split; [exact P1|]. exact (eq_trans H P2).
    + right. exists e', w. split; [right; exact H1|auto].
  - destruct P1 as [P1|[-> [w [P1 P2]]]]; [left; exact P1|].
    right. exists e, w. split; [left; reflexivity|]. split; [exact P1|exact P2].
Qed.

Lemma verify_rest_pub norm E h m o :
  pub (m_obj (verify_rest norm E h m o))
  = pub (m_obj (when (negb (h_raise h)) (add_defaults (missing o)) o)).
Proof.
  rewrite rest_checked, m_obj_bind.
  destruct (when (negb (h_raise h)) (add_defaults (missing o)) o) as [[o1 ev] [u|x]]; [|reflexivity].
  cbn [m_obj fst]. rewrite bind_finish.
  destruct (checked norm E m (h_ignore h) _ _ _ o1) as [[o2 ev2] r] eqn:CK.
  destruct (checked_stable _ _ _ _ _ _ _ _ _ _ _ CK) as [O2 _].
  replace (m_obj (outcome h (o2, ev2, r))) with o2 by (destruct r as [[e w]|x]; reflexivity).
  destruct O2 as [->|[a [d ->]]]; reflexivity.
Qed.

Lemma verify_added E h m o k v : db_ok E -> dicts_ok o ->
  dget k (pub (m_obj (verify E h m o))) = Some v ->
  dget k (pub o) = Some v
  \/ exists cv e, convention_of E o cv /\ declared cv o k = Some e
       /\ is_mandatory (e_flags e) = true /\ ~ contained o k /\ added_default e v.
Proof.
  intros DB DO G. unfold verify in G.
  destruct (verify_gen_obj (normative_keys E) E h m o) as [[H _]|[o1 [H1 [H2 _]]]].
  { rewrite H in G. auto. }
  rewrite H2, verify_rest_pub in G.
  destruct (reset_iff E o DB DO) as [RI _].
  destruct (RI _ H1) as [b [c [w [content [V1 [V2 [V3 R]]]]]]].
  destruct (h_raise h); cbn [negb when] in G.
  { left. rewrite <- (rt_pub _ _ _ R). exact G. }
  destruct (add_defaults_pub (missing o1) o1 k) as [Q|[e [w' [Q1 [Q2 Q3]]]]].
  { left. rewrite <- (rt_pub _ _ _ R). congruence. }
  right. exists (sofar_keys content), e. split; [exists b, c, w, content; auto|].
  unfold missing in Q1. apply filter_In in Q1. destruct Q1 as [Q1 B]. cbn [fst snd] in B.
  apply andb_true_iff in B. destruct B as [B1 B2]. apply negb_true_iff in B2. apply smem_false in B2.
  split; [rewrite <- (rt_conv _ _ _ R); apply In_dget; [apply (rt_nodup _ _ _ R)|exact Q1]|].
  split; [exact B1|]. unfold contained. rewrite (rt_pub _ _ _ R) in B2. split; [exact B2|].
  apply normalize_added. congruence.
Qed.
