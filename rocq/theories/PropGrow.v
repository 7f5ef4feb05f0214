(** C86, C87: adding an entry to a valid object and deleting one from it. *)
From Verif Require Import Base PyStr PyNum NdArray Sofa Verify Upgrade Demo
  SpecAttr SpecInit SpecValue SpecVerify SpecGrow DemoFacts BaseFacts StrFacts AttrFacts OpFacts InitFacts ProtFacts
  AddDelFacts MissingFacts CoreFacts ValidFacts ShapeFacts RuleFacts VerifyFacts DictFacts IssueFacts DimFacts OrderFacts StreamFacts GrowFacts PropAttr PropVerify PropRound.
From Coq Require Import ZArith Lia.
Open Scope string_scope.
Open Scope list_scope.
Open Scope nat_scope.

(** the object's own list of declared entries is up to date, and all custom
    entries are contained: true after creating, reading and verifying, and after
    any successful addition *)
Record in_step (cv : convention) (o : sofa) : Prop := {
  is_conv : forall k, In k (dkeys (conv o)) <-> declared cv o k <> None;
  is_custom : forall k, In k (dkeys (own_custom cv o)) -> contained o k }.

Lemma own_custom_spec cv o : own_custom cv o = filter (fun ke => negb (dmem (fst ke) cv)) match custom o with Some cu => cu | None => [] end.
Proof. unfold own_custom. destruct (custom o); reflexivity. Qed.
Lemma filter_all {A} (f : A -> bool) l : (forall x, In x l -> f x = true) -> filter f l = l.
Proof.
  induction l as [|x l IH]; intro H; [reflexivity|]. cbn [filter]. rewrite (H x (or_introl eq_refl)). f_equal. apply IH. intros y Y. apply H. right. exact Y.
Qed.
Lemma filter_absent {A} k (l : dict A) : ~ In k (dkeys l) -> filter (fun x => negb (String.eqb (fst x) k)) l = l.
Proof.
  intro N. apply filter_all. intros x I. apply negb_true_iff. apply eqb_neq_s. intros <-. apply N. apply (in_map fst) in I. exact I.
Qed.
Lemma dset_present_keys {A} k (e : A) l : In k (dkeys l) -> dkeys (dset k e l) = dkeys l.
Proof.
  induction l as [|[j x] l IH]; [intros []|]. cbn [dkeys map fst dset]. destruct (String.eqb_spec k j) as [->|N]; [reflexivity|].
  intros [Q|I]; [congruence|]. cbn [dkeys map fst]. f_equal. apply IH. exact I.
Qed.
Lemma filter_dset {A} k (e : A) f l : f k = false -> filter (fun x : string * A => f (fst x)) (dset k e l) = filter (fun x => f (fst x)) l.
Proof.
  intro F. induction l as [|[j x] l IH]; cbn [dset filter fst]; [rewrite F; reflexivity|].
  destruct (String.eqb_spec k j) as [->|N]; cbn [filter fst]; [rewrite F; reflexivity|]. rewrite IH. reflexivity.
Qed.

(** the entry that an addition declares *)
Definition declares (cv : convention) (name t : string) (d : option string) (e : entry) : Prop :=
  dget name cv = Some e
  \/ dget name cv = None /\ e_type e = t /\ e_dims e = option_map spelled d /\ e_flags e = None.

Lemma added_without cv name v t d o o' ev : dicts_ok o -> in_step cv o -> is_private name = false ->
  add_entry name v t d o = (o', ev, Ok tt) ->
  exists e w, normalize v = Ok w /\ without cv name e w o' o /\ dicts_ok o' /\ declares cv name t d e
    /\ ~ contained o name /\ (custom o' = None -> custom o = None).
Proof.
  intros DO IS HP H. assert (DO' : dicts_ok o').
  { assert (X := kdict_add_entry name v t d o). rewrite H in X. exact (X DO). }
  destruct (add_entry_ok name v t d o o' ev tt H HP) as [HN [_ [_ [w [W [PU K]]]]]].
  assert (NC : ~ contained o name).
  { intro C. unfold contained in C. apply dmem_In in C. unfold hasattr in HN. rewrite C in HN. discriminate. }
  assert (NO : ~ In name (dkeys (own_custom cv o))) by (intro C; exact (NC (is_custom _ _ IS name C))).
  assert (G : dget name (pub o') = Some w).
  { rewrite PU. apply In_dget; [rewrite <- PU; apply DO'|]. apply in_or_app. right. left. reflexivity. }
  assert (F : pub o = filter (fun x => negb (String.eqb (fst x) name)) (pub o')).
  { rewrite PU, filter_app, filter_absent by exact NC. cbn [filter fst]. rewrite eqb_refl_s. cbn [negb]. symmetry. apply app_nil_r. }
  destruct (dmem name (conv o)) eqn:DM.
  - destruct K as [_ KC]. apply dmem_In in DM. apply (is_conv _ _ IS) in DM.
    destruct (dget name cv) as [e|] eqn:GC.
    + exists e, w. split; [exact W|]. split; [|split; [exact DO'|split; [left; exact GC|split; [exact NC|congruence]]]].
      split; [exact G| |exact F|].
      * unfold declared. rewrite GC. reflexivity.
      * rewrite !own_custom_spec, KC. symmetry. apply filter_absent. rewrite <- own_custom_spec. exact NO.
    + exfalso. unfold declared in DM. rewrite GC in DM. destruct (dget name (own_custom cv o)) eqn:Q; [|congruence].
      apply NO. apply dget_Some_In. eauto.
  - destruct K as [e [_ [KC [T [D FL]]]]]. apply dmem_false in DM.
    assert (DN : declared cv o name = None).
    { destruct (declared cv o name) eqn:Q; [|reflexivity]. exfalso. apply DM. apply (is_conv _ _ IS). congruence. }
    assert (GC : dget name cv = None) by (unfold declared in DN; destruct (dget name cv); congruence).
    set (cu := match custom o with Some c => c | None => [] end) in *.
    assert (NCU : ~ In name (dkeys cu)).
    { intro I. apply NO. rewrite own_custom_spec. fold cu. apply dget_Some_In in I. destruct I as [x I]. apply dget_In in I.
      assert (J : In (name, x) (filter (fun ke => negb (dmem (fst ke) cv)) cu)).
      { apply filter_In. split; [exact I|]. cbn [fst]. apply negb_true_iff. apply dmem_false. apply dget_None. exact GC. }
      apply (in_map fst) in J. exact J. }
    assert (OC : own_custom cv o' = own_custom cv o ++ [(name, e)]).
    { rewrite !own_custom_spec, KC. fold cu. rewrite dset_new by exact NCU. rewrite filter_app. f_equal. cbn [filter fst].
      assert (X : dmem name cv = false) by (apply dmem_false; apply dget_None; exact GC). rewrite X. reflexivity. }
    exists e, w. split; [exact W|]. split; [|split; [exact DO'|split; [right|split; [exact NC|rewrite KC; discriminate]]]].
    + split; [exact G| |exact F|].
      * unfold declared. rewrite GC, OC. apply In_dget; [|apply in_or_app; right; left; reflexivity].
        rewrite <- OC. unfold own_custom. destruct DO' as [_ DC]. rewrite KC in *. unfold dkeys in *.
        rewrite (map_filter fst (fun j => negb (dmem j cv))). apply NoDup_filter. exact DC.
      * rewrite OC, filter_app, filter_absent by exact NO. cbn [filter fst]. rewrite eqb_refl_s. cbn [negb]. symmetry. apply app_nil_r.
    + split; [exact GC|]. split; [exact T|]. split; [|exact FL]. rewrite D. destruct d as [d|]; [cbn; rewrite spelled_spec|]; reflexivity.
Qed.

Lemma deleted_without cv name o o' ev u e : dicts_ok o -> declared cv o name = Some e -> del_attr name o = (o', ev, Ok u) ->
  exists w, without cv name e w o o' /\ dicts_ok o' /\ (custom o = None -> custom o' = None).
Proof.
  intros DO DE H. assert (DO' : dicts_ok o') by (assert (X := kdict_del_attr name o); rewrite H in X; exact (X DO)).
  destruct (del_attr_ok name o o' ev u H (proj1 DO)) as [I [PU [_ [_ [_ [CU _]]]]]].
  apply dget_Some_In in I. destruct I as [w W]. exists w. split; [|split; [exact DO'|intro Q; rewrite CU, Q; reflexivity]].
  split; [exact W|exact DE|exact PU|]. rewrite !own_custom_spec, CU. destruct DO as [_ DC]. destruct (custom o) as [cu|]; [|reflexivity].
  cbn [option_map]. rewrite (ddel_filter _ _ DC), filter_comm. apply filter_ext. intros [j x]. cbn [fst]. rewrite String.eqb_sym. reflexivity.
Qed.

(** names and versions of conventions are mandatory *)
Lemma own_name_mandatory E o c v cv m key : db_ok E -> valid_for E m o c v cv ->
  key = "GLOBAL_SOFAConventions" \/ key = "GLOBAL_SOFAConventionsVersion" ->
  exists e, dget key cv = Some e /\ is_mandatory (e_flags e) = true.
Proof.
  intros [_ DB] V K. destruct (va_file _ _ _ _ _ _ V) as [ct [F ->]]. destruct (DB _ F) as [c' [v' [_ [_ [_ [_ [_ [_ [S1 S2]]]]]]]]].
  cbn [snd] in S1, S2. destruct K as [->| ->]; [destruct S1 as [e [b [G [M _]]]]|destruct S2 as [e [b [G [M _]]]]]; eauto.
Qed.

Lemma verified_for E m o cv : db_ok E -> rules_tidy E -> dicts_ok o -> convention_of E o cv ->
  (is_ok (m_res (verify E HRaise m o)) = true <-> exists c v, valid_for E m o c v cv).
Proof.
  intros DB RT DO CO. rewrite (C11_verify_iff_valid E m o DB RT DO). split.
  - intros [c [v [cv' V]]]. assert (cv' = cv) by (eapply convention_unique; [exact DB|exact CO|exact (valid_convention _ _ _ _ _ _ V)]).
    subst cv'. eauto.
  - intros [c [v V]]. exists c, v, cv. exact V.
Qed.

(** ** C86 *)

(** a new object of the object's convention can be created, and its version is
    given as text; needed for objects without custom entries, because verify
    compares the names of custom entries with those of a new object *)
Definition comparable (E : env) (o : sofa) : Prop :=
  custom o = None -> forall c v b w, dget "GLOBAL_SOFAConventions" (pub o) = Some (VStr b c) ->
    dget "GLOBAL_SOFAConventionsVersion" (pub o) = Some w -> py_str E w = v ->
    (exists b', w = VStr b' v) /\ is_ok (snd (sofa_init E c false v VAuto)) = true.

(** After adding an entry to an object that passes verify, the object passes if
    and only if the new entry does: no other entry becomes invalid.
    Missing: an entry that states another size for a dimension that is stated
    already makes the other entries invalid ([C86_refuted]). *)
Theorem C86_adding_partial :
  forall E m o o' ev name v t d cv,
  db_ok E -> rules_tidy E -> dicts_ok o -> convention_of E o cv -> in_step cv o -> comparable E o ->
  is_private name = false ->
  is_ok (m_res (verify E HRaise m o)) = true ->
  add_entry name v t d o = (o', ev, Ok tt) ->
  agrees cv name o' o -> (string_variable cv o' name -> lengths_free E cv o') ->
  exists e w, normalize v = Ok w /\ dget name (pub o') = Some w /\ declared cv o' name = Some e /\ declares cv name t d e
    /\ (is_ok (m_res (verify E HRaise m o')) = true <-> entry_valid E m cv o' name e w).
Proof.
  intros E m o o' ev name v t d cv DB RT DO CO IS CM HP V A OL LF.
  destruct (proj1 (verified_for E m o cv DB RT DO CO) V) as [c [ve VF]].
  destruct (added_without cv name v t d o o' ev DO IS HP A) as [e [w [W [WO [DO' [DE [NC CU]]]]]]].
  exists e, w. split; [exact W|]. split; [apply (wo_value _ _ _ _ _ _ WO)|]. split; [apply (wo_entry _ _ _ _ _ _ WO)|]. split; [exact DE|].
  assert (HC : custom o' <> None -> custom o = None ->
     (exists b, dget "GLOBAL_SOFAConventionsVersion" (pub o) = Some (VStr b ve)) /\ is_ok (snd (sofa_init E c false ve VAuto)) = true).
  { intros _ CN. destruct (va_name _ _ _ _ _ _ VF) as [b B]. destruct (va_version _ _ _ _ _ _ VF) as [u [U1 U2]].
    destruct (CM CN c ve b u B U1 U2) as [[b' ->] I]. eauto. }
  assert (CO' : convention_of E o' cv).
  { destruct CO as [b [c0 [u [ct [B [U F]]]]]]. exists b, c0, u, ct.
    split; [rewrite <- (wo_get cv name e w o' o WO); [exact B|exact (wo_neq cv name e w o' o WO _ _ B)]|].
    split; [rewrite <- (wo_get cv name e w o' o WO); [exact U|exact (wo_neq cv name e w o' o WO _ _ U)]|exact F]. }
  rewrite (verified_for E m o' cv DB RT DO' CO').
  assert (GV := grow_valid cv name e w o' o WO E m c ve LF DO' VF OL HC). split.
  - intros [c1 [v1 V1]]. assert (c1 = c /\ v1 = ve) as [-> ->]; [|apply GV; exact V1].
    destruct (va_name _ _ _ _ _ _ VF) as [b B]. destruct (va_version _ _ _ _ _ _ VF) as [u [U1 U2]].
    destruct (va_name _ _ _ _ _ _ V1) as [b1 B1]. destruct (va_version _ _ _ _ _ _ V1) as [u1 [U11 U12]].
    rewrite <- (wo_get cv name e w o' o WO) in B1, U11 by (first [exact (wo_neq cv name e w o' o WO _ _ B)|exact (wo_neq cv name e w o' o WO _ _ U1)]).
    split; congruence.
  - intro EV. exists c, ve. apply GV. exact EV.
Qed.
Print Assumptions C86_adding_partial.

(** the addition keeps what the theorem needs, so it can be applied again *)
Theorem C86_again :
  forall cv o o' ev name v t d, dicts_ok o -> in_step cv o -> is_private name = false ->
  add_entry name v t d o = (o', ev, Ok tt) -> dicts_ok o' /\ in_step cv o'.
Proof.
  intros cv o o' ev name v t d DO IS HP A.
  destruct (added_without cv name v t d o o' ev DO IS HP A) as [e [w [W [WO [DO' [DE [NC CU]]]]]]]. split; [exact DO'|].
  destruct (add_entry_ok name v t d o o' ev tt A HP) as [_ [_ [_ [w0 [_ [PU K]]]]]].
  split.
  - intro k. assert (CV : In k (dkeys (conv o')) <-> In k (dkeys (conv o)) \/ k = name).
    { destruct (dmem name (conv o)) eqn:DM.
      - destruct K as [-> _]. apply dmem_In in DM. split; [auto|intros [H| ->]; assumption].
      - destruct K as [e0 [-> _]]. unfold dkeys. rewrite map_app, in_app_iff. cbn [map fst In]. split; [intros [H|[<-|[]]]; auto|intros [H| ->]; auto]. }
    rewrite CV, (is_conv _ _ IS). destruct (String.eqb_spec k name) as [->|N].
    + rewrite (wo_entry _ _ _ _ _ _ WO). split; [discriminate|auto].
    + rewrite (wo_declared cv name e w o' o WO k N). tauto.
  - intros k I. destruct (String.eqb_spec k name) as [->|N]; [exact (wo_there cv name e w o' o WO)|].
    apply (wo_contained cv name e w o' o WO k). apply (is_custom _ _ IS). exact (own_other cv name e w o' o WO k I N).
Qed.
Print Assumptions C86_again.

(** new objects meet the hypotheses *)
Theorem C86_new :
  forall E c mandatory version vo ev o cv, db_ok E -> sofa_init E c mandatory version vo = (ev, Ok o) -> convention_of E o cv ->
  dicts_ok o /\ in_step cv o.
Proof.
  intros E c mandatory version vo ev o cv DB SI CO. split; [exact (init_dicts _ _ _ _ _ _ _ SI)|].
  destruct (armed_init _ _ _ _ _ _ _ DB SI) as [v [A [_ [_ [_ [_ [CU _]]]]]]].
  assert (CV : conv o = cv).
  { destruct (ar_name _ _ _ _ _ A) as [b1 A1]. destruct (ar_version _ _ _ _ _ A) as [b2 A2].
    assert (CO0 := CO). destruct CO as [b [c0 [w [ct [B [W [F Q]]]]]]]. rewrite A1 in B. injection B as _ <-. rewrite A2 in W. injection W as <-.
    cbn [py_str] in F. destruct (has_file_version E c v ct DB F) as [_ [_ NL]].
    destruct (load_has_file E c v (conv o) DB NL (ar_load _ _ _ _ _ A)) as [ct2 [F2 Q2]].
    apply (convention_unique E o cv (conv o) DB CO0). exists b1, c, (VStr b2 v), ct2. auto. }
  split.
  - intro k. unfold declared, own_custom. rewrite CU, CV, <- dget_Some_In. destruct (dget k cv) as [e|]; [split; [discriminate|eauto]|].
    split; [intros [x X]; discriminate X|intro X; destruct (X eq_refl)].
  - intros k I. unfold own_custom in I. rewrite CU in I. destruct I.
Qed.
Print Assumptions C86_new.

(** dimensions of SOFA only *)
Definition usual_letters (d : string) : Prop := forall x, has_char x d = true -> has_char x "ERMNCIS" = true.

Lemma add_plain name v t d o o' ev : add_entry name v t d o = (o', ev, Ok tt) -> t <> "attribute" ->
  has_char "_" name = false /\ exists d0, d = Some d0.
Proof.
  intros H T. unfold add_entry in H. rewrite bind_get in H. cbv zeta in H. destruct (hasattr o name); [discriminate H|].
  destruct (negb (smem t _)); [discriminate H|]. rewrite (eqb_neq_s _ _ T) in H. cbn [negb andb] in H. rewrite andb_true_r in H.
  destruct (has_char "_" name) eqn:U; [discriminate H|]. split; [reflexivity|]. destruct d as [d0|]; [eauto|discriminate H].
Qed.

Lemma usual_alone d : usual_letters d -> alternatives d = [d].
Proof.
  intro U. unfold alternatives, split. assert (N : has_char "," d = false).
  { destruct (has_char "," d) eqn:Q; [|reflexivity]. assert (X := U _ Q). discriminate X. }
  clear U. induction d as [|c d IH]; [reflexivity|]. cbn [has_char] in N. apply orb_false_iff in N. destruct N as [N1 N2].
  cbn [split_aux]. rewrite (IH N2). assert (P : String.prefix ", " (String c d) = false).
  { cbn [String.prefix]. destruct (ascii_dec "," c) as [<-|]; [discriminate N1|reflexivity]. }
  rewrite P. reflexivity.
Qed.
Lemma usual_upper x : has_char x "ERMNCIS" = true -> is_lower_ascii x = false /\ x <> "s"%char.
Proof. destruct x as [[] [] [] [] [] [] [] []]; vm_compute; intro H; try discriminate H; split; [reflexivity|discriminate|reflexivity|discriminate|reflexivity|discriminate|reflexivity|discriminate|reflexivity|discriminate|reflexivity|discriminate|reflexivity|discriminate]. Qed.
Lemma indexed_has i d j x : In (j, x) (indexed i d) -> has_char x d = true.
Proof.
  revert i. induction d as [|c d IH]; intros i; [intros []|]. cbn [indexed has_char]. intros [Q|I].
  - injection Q as _ ->. rewrite Ascii.eqb_refl. reflexivity.
  - rewrite (IH _ I). apply orb_true_r.
Qed.
Lemma usual_states cv o k e d : declared cv o k = Some e -> e_dims e = Some d -> usual_letters d -> states cv o k = [].
Proof.
  intros D ED U. unfold states. rewrite D. destruct (dget k (pub o)) as [v|]; [|reflexivity]. rewrite ED.
  unfold main_alternative. rewrite (usual_alone d U). cbn [hd].
  assert (F : filter (fun ic : nat * ascii => is_lower_ascii (snd ic)) (indexed 0 d) = []); [|rewrite F; reflexivity].
  assert (X : forall ic, In ic (indexed 0 d) -> is_lower_ascii (snd ic) = false).
  { intros [j x] I. apply usual_upper. apply U. exact (indexed_has 0 d j x I). }
  induction (indexed 0 d) as [|ic l IH]; [reflexivity|]. cbn [filter]. rewrite (X ic (or_introl eq_refl)). apply IH.
  intros y Y. apply X. right. exact Y.
Qed.

(** Custom variables as they are described in the documentation can be added to
    every valid object: with a name that is free and not reserved, without "_",
    that no rule mentions, with the dimensions of SOFA, and with data of the
    declared type that have the sizes of the object's dimensions. *)
Theorem C86_variable :
  forall E m o o' ev name v w s t d cv,
  db_ok E -> rules_tidy E -> dicts_ok o -> convention_of E o cv -> in_step cv o -> comparable E o ->
  is_ok (m_res (verify E HRaise m o)) = true ->
  add_variable name v t (Some d) o = (o', ev, Ok tt) -> normalize v = Ok w ->
  is_private name = false -> dget name cv = None ->
  (forall r, name <> "PRIVATE" +++ r) -> (forall r, name <> "API" +++ r) -> (forall r, name <> "GLOBAL" +++ r) ->
  (forall n, In n (dkeys cv) -> name <> replace "GLOBAL_" "" n) ->
  endswith "Units" name = false -> (forall j r, In (j, r) (rules E) -> python_name j <> name) ->
  t = "double" \/ t = "string" -> has_type t w ->
  usual_letters (spelled d) -> compared_shape t (spelled d) w s -> fits cv o s (spelled d) ->
  (has_char "S" (spelled d) = true -> (exists s' ls, strings w s' ls) /\ lengths_free E cv o) ->
  is_ok (m_res (verify E HRaise m o')) = true.
Proof.
  intros E m o o' ev name v w s t d cv DB RT DO CO IS CM V A W HP NC N1 N2 N3 CL NU NR T TY US CS FI SS.
  assert (TA : t <> "attribute") by (destruct T as [-> | ->]; discriminate).
  destruct (added_without cv name v t (Some d) o o' ev DO IS HP A) as [e [w0 [W0 [WO [DO' [DE [NI CU]]]]]]].
  assert (w0 = w) by congruence. subst w0. destruct DE as [DE|[_ [TE [DD FL]]]]; [congruence|]. cbn [option_map] in DD.
  assert (WE := wo_entry _ _ _ _ _ _ WO). assert (WV := wo_value _ _ _ _ _ _ WO).
  assert (ST := usual_states cv o' name e (spelled d) WE DD US).
  assert (OL : agrees cv name o' o) by (intros c a1 n I; rewrite ST in I; destruct I).
  assert (SV : string_variable cv o' name -> has_char "S" (spelled d) = true).
  { intros [_ [e0 [d0 [D0 [E0 S0]]]]]. rewrite WE in D0. injection D0 as <-. rewrite DD in E0. injection E0 as <-.
    unfold main_alternative in S0. rewrite (usual_alone _ US) in S0. exact S0. }
  assert (LF : string_variable cv o' name -> lengths_free E cv o').
  { intro H. destruct (SS (SV H)) as [_ [L1 L2]]. split; [|exact L2]. intros j e0 d0 alt D0 E0 I.
    destruct (String.eqb_spec j name) as [->|NE].
    - rewrite WE in D0. injection D0 as <-. rewrite DD in E0. injection E0 as <-. rewrite (usual_alone _ US) in I. destruct I as [<-|[]].
      destruct (has_char "s" (spelled d)) eqn:Q; [|reflexivity]. destruct (usual_upper _ (US _ Q)) as [_ X]. destruct (X eq_refl).
    - rewrite <- (wo_declared cv name e w o' o WO j NE) in D0. exact (L1 j e0 d0 alt D0 E0 I). }
  destruct (C86_adding_partial E m o o' ev name v t (Some d) cv DB RT DO CO IS CM HP V A OL LF) as [e' [w' [W' [G' [D' [_ IFF]]]]]].
  rewrite WE in D'. injection D' as <-. rewrite WV in G'. injection G' as <-. apply IFF.
  destruct (add_plain name v t (Some d) o o' ev A TA) as [NO _]. split.
  - rewrite TE. exact TY.
  - split; [intro Q; congruence|]. split.
    + intros _. change "Data_" with ("Data" +++ str1 "_"). rewrite StreamFacts.replace_absent; exact NO.
    + split; [exact N1|]. split; [exact N2|]. intros r Q. destruct (N3 r Q).
  - intros _ n I. change "GLOBAL_" with ("GLOBAL" +++ str1 "_") at 1. rewrite StreamFacts.replace_absent by exact NO. exact (CL n I).
  - intros c n I. rewrite ST in I. destruct I.
  - intro H. destruct (SS (SV H)) as [[s' [ls S]] _]. eauto.
  - intros _. exists e, (spelled d), w, s, [], (spelled d), []. split; [exact WE|]. split; [exact DD|]. split; [exact WV|].
    split; [rewrite TE; exact CS|]. split; [rewrite (usual_alone _ US); reflexivity|]. split; [intros a []|].
    intros i x X. apply (extent_up cv name e w o' o WO x _ OL).
    + intros _. apply usual_upper. apply US. exact (nth_has x i _ X).
    + exact (FI i x X).
  - intros j r I Q. destruct (NR j r I Q).
  - intros _ Q. congruence.
Qed.
Print Assumptions C86_variable.

(** The same for attributes of the object's variables and global attributes. *)
Theorem C86_attribute :
  forall E m o o' ev name v b s cv,
  db_ok E -> rules_tidy E -> dicts_ok o -> convention_of E o cv -> in_step cv o -> comparable E o ->
  is_ok (m_res (verify E HRaise m o)) = true ->
  add_attribute name v o = (o', ev, Ok tt) -> normalize v = Ok (VStr b s) ->
  is_private name = false -> dget name cv = None ->
  (forall r, name <> "PRIVATE" +++ r) -> (forall r, name <> "API" +++ r) ->
  (exists var a, name = var +++ "_" +++ a /\ has_char "_" a = false
     /\ (var = "GLOBAL" \/ declared cv o var <> None /\ forall r, name <> "GLOBAL" +++ r)) ->
  (forall n, In n (dkeys cv) -> replace "GLOBAL_" "" name <> replace "GLOBAL_" "" n) ->
  (m = VWrite -> endswith "Units" name = true -> lower s = s) -> (forall j r, In (j, r) (rules E) -> python_name j <> name) ->
  is_ok (m_res (verify E HRaise m o')) = true.
Proof.
  intros E m o o' ev name v b s cv DB RT DO CO IS CM V A W HP NC N1 N2 [var [a [QN [NA VA]]]] CL UN NR.
  destruct (added_without cv name v "attribute" None o o' ev DO IS HP A) as [e [w0 [W0 [WO [DO' [DE [NI CU]]]]]]].
  assert (w0 = VStr b s) by congruence. subst w0. destruct DE as [DE|[_ [TE [DD FL]]]]; [congruence|]. cbn [option_map] in DD.
  assert (WE := wo_entry _ _ _ _ _ _ WO). assert (WV := wo_value _ _ _ _ _ _ WO).
  assert (ST : states cv o' name = []) by (unfold states; rewrite WE, WV, DD; reflexivity).
  assert (OL : agrees cv name o' o) by (intros c a1 n I; rewrite ST in I; destruct I).
  assert (SV : ~ string_variable cv o' name) by (intros [_ [e0 [d0 [D0 [E0 S0]]]]]; rewrite WE in D0; congruence).
  assert (LF : string_variable cv o' name -> lengths_free E cv o') by (intro H; destruct (SV H)).
  destruct (C86_adding_partial E m o o' ev name v "attribute" None cv DB RT DO CO IS CM HP V A OL LF) as [e' [w' [W' [G' [D' [_ IFF]]]]]].
  rewrite WE in D'. injection D' as <-. rewrite WV in G'. injection G' as <-. apply IFF. split.
  - rewrite TE. left. eauto.
  - rewrite TE. split; [|split; [intro Q; congruence|]].
    + intros _. exists var, a. split; [exact QN|]. split; [exact NA|]. destruct VA as [->|[VA _]].
      * right. exists a. exact QN.
      * left. intro Q. apply VA. destruct (declared cv o var) as [x|] eqn:DV; [|reflexivity].
        rewrite (wo_declared_keep cv name e _ o' o WO var x DV) in Q. discriminate Q.
    + split; [exact N1|]. split; [exact N2|]. intros r Q. split; [reflexivity|]. destruct VA as [->|[_ VA]]; [|destruct (VA r Q)].
      exists a. rewrite QN in Q. injection Q as Q. symmetry. exact Q.
  - intros _. exact CL.
  - intros c n I. rewrite ST in I. destruct I.
  - intro H. destruct (SV H).
  - intro H. congruence.
  - intros j r I Q. destruct (NR j r I Q).
  - intros M U. exists b, s. auto.
Qed.
Print Assumptions C86_attribute.

(** ** C87 *)

(** After deleting an entry from an object that passes verify, the object passes
    if and only if nobody needs the entry: it is not a custom variable with attributes, and
    no rule for the other data names it.
    Missing: entries that state sizes that others use and that no other entry
    states ([C87_refuted]). *)
Theorem C87_deleting_partial :
  forall E m o o' ev name cv,
  db_ok E -> rules_tidy E -> dicts_ok o -> convention_of E o cv ->
  is_ok (m_res (verify E HRaise m o)) = true ->
  del_attr name o = (o', ev, Ok tt) ->
  dispensable E cv name o o' -> (string_variable cv o name -> lengths_free E cv o) ->
  exists e, declared cv o name = Some e
    /\ (is_ok (m_res (verify E HRaise m o')) = true <-> spare E cv o name e).
Proof.
  intros E m o o' ev name cv DB RT DO CO V D UL LF.
  destruct (proj1 (verified_for E m o cv DB RT DO CO) V) as [c [ve VF]].
  destruct (del_attr_ok name o o' ev tt D (proj1 DO)) as [I [PU _]].
  apply dget_Some_In in I. destruct I as [w W]. destruct (va_type _ _ _ _ _ _ VF name w W) as [e [DE TE]]. exists e. split; [exact DE|].
  destruct (deleted_without cv name o o' ev tt e DO DE D) as [w0 [WO [DO' CU]]].
  assert (KK : forall key, key = "GLOBAL_SOFAConventions" \/ key = "GLOBAL_SOFAConventionsVersion" -> name <> key \/ ~ spare E cv o name e).
  { intros key K. destruct (String.eqb_spec name key) as [->|N]; [right|left; exact N]. intros [OP _ _].
    destruct (own_name_mandatory E o c ve cv m key DB VF K) as [e1 [G1 M1]].
    assert (e1 = e) by (unfold declared in DE; rewrite G1 in DE; congruence). subst e1. rewrite OP in M1; [discriminate M1|congruence]. }
  assert (SV := shrink_valid cv name e w0 o o' WO E m c ve LF VF UL (KK _ (or_introl eq_refl)) (KK _ (or_intror eq_refl)) CU).
  rewrite (C11_verify_iff_valid E m o' DB RT DO'). split.
  - intros [c1 [v1 [cv1 V1]]]. apply SV.
    destruct (va_name _ _ _ _ _ _ VF) as [b B]. destruct (va_version _ _ _ _ _ _ VF) as [u [U1 U2]].
    destruct (va_name _ _ _ _ _ _ V1) as [b1 B1]. destruct (va_version _ _ _ _ _ _ V1) as [u1 [U11 U12]].
    destruct (va_file _ _ _ _ _ _ V1) as [ct1 [F1 F2]].
    rewrite (wo_get cv name e w0 o o' WO) in B1 by exact (wo_neq cv name e w0 o o' WO _ _ B1).
    rewrite (wo_get cv name e w0 o o' WO) in U11 by exact (wo_neq cv name e w0 o o' WO _ _ U11).
    assert (cv1 = cv) by (apply (convention_unique E o cv cv1 DB CO); exists b1, c1, u1, ct1; rewrite U12; auto). 
    assert (c1 = c) by congruence. assert (v1 = ve) by congruence. rewrite H, H0, H1 in V1. exact V1.
  - intro SP. exists c, ve, cv. apply SV. exact SP.
Qed.
Print Assumptions C87_deleting_partial.

(** ** Cases *)

Lemma demo_sizes : all_states cv10 demo_sofa = [("R"%char, Some 2); ("E"%char, Some 1); ("M"%char, Some 1); ("N"%char, Some 2)].
Proof. vm_compute. reflexivity. Qed.

Definition warm : sofa := run demo demo_sofa [OAddVar "Temp" (zi 25%Z) "double" (Some "mi")].
Definition warm_units : sofa := run demo warm [OAddAttr "Temp_Units" (VStr false "kelvin")].

Lemma step_ok E o p : m_res (run_op E p o) = Ok tt -> run_op E p o = (step E o p, m_out (run_op E p o), Ok tt).
Proof. intro H. unfold step, m_obj, m_out, m_res in *. destruct (run_op E p o) as [[x y] z]. cbn [fst snd] in *. subst z. reflexivity. Qed.

Lemma demo_in_step : in_step cv10 demo_sofa.
Proof.
  assert (CO : convention_of demo demo_sofa cv10) by (apply in_hrir_ok; vm_compute; reflexivity).
  destruct (C86_new demo _ _ _ _ _ demo_sofa cv10 demo_db_ok demo_created CO) as [_ IS]. exact IS.
Qed.
Lemma demo_comparable : comparable demo demo_sofa.
Proof.
  intros _ c v b w G1 G2 Q.
  assert (X1 : dget "GLOBAL_SOFAConventions" (pub demo_sofa) = Some (VStr false "SimpleFreeFieldHRIR")) by (vm_compute; reflexivity).
  assert (X2 : dget "GLOBAL_SOFAConventionsVersion" (pub demo_sofa) = Some (VStr false "1.0")) by (vm_compute; reflexivity).
  rewrite X1 in G1. injection G1 as _ <-. rewrite X2 in G2. injection G2 as <-. cbn [py_str] in Q. subst v.
  split; [eexists; reflexivity|]. vm_compute. reflexivity.
Qed.

(** the two theorems apply to the example of the documentation *)
Example C86_case :
  is_ok (m_res (verify demo HRaise VWrite warm)) = true /\ is_ok (m_res (verify demo HRaise VWrite warm_units)) = true
  /\ dkeys (pub warm_units) = dkeys (pub demo_sofa) ++ ["Temp"; "Temp_Units"].
Proof.
  assert (CO : convention_of demo demo_sofa cv10) by (apply in_hrir_ok; vm_compute; reflexivity).
  assert (DO : dicts_ok demo_sofa) by (apply dicts_check; vm_compute; reflexivity).
  assert (V0 : is_ok (m_res (verify demo HRaise VWrite demo_sofa)) = true) by (vm_compute; reflexivity).
  assert (A1 : m_res (run_op demo (OAddVar "Temp" (zi 25%Z) "double" (Some "mi")) demo_sofa) = Ok tt) by (vm_compute; reflexivity).
  apply step_ok in A1. change (step demo demo_sofa (OAddVar "Temp" (zi 25%Z) "double" (Some "mi"))) with warm in A1.
  assert (CO1 : convention_of demo warm cv10) by (apply in_hrir_ok; vm_compute; reflexivity).
  destruct (C86_again cv10 demo_sofa warm _ "Temp" (zi 25%Z) "double" (Some "mi") DO demo_in_step eq_refl A1) as [DO1 IS1].
  assert (KEYS : dkeys cv10 = map fst cv10) by reflexivity.
  assert (RK : forall (P : string -> Prop), (forall j, In j ["GLOBAL_DataType"; "ListenerPosition_Type"] -> P j) ->
     forall j r, In (j, r) (rules demo) -> P (python_name j)).
  { intros P H j r I. cbn [rules demo demo_rules In] in I. destruct I as [Q|[Q|[]]]; injection Q as <- _; apply H; [left|right; left]; vm_compute; reflexivity. }
  assert (V1 : is_ok (m_res (verify demo HRaise VWrite warm)) = true).
  { refine (C86_variable demo VWrite demo_sofa warm _ "Temp" (zi 25%Z) (zi 25%Z) [1;1;1;1] "double" "mi" cv10 demo_db_ok demo_rules_tidy DO CO
      demo_in_step demo_comparable V0 A1 eq_refl eq_refl _ _ _ _ _ _ _ _ _ _ _ _ _).
    - vm_compute. reflexivity.
    - intros r Q. discriminate Q.
    - intros r Q. discriminate Q.
    - intros r Q. discriminate Q.
    - assert (B : forallb (fun n => negb (String.eqb "Temp" (replace "GLOBAL_" "" n))) (dkeys cv10) = true) by (vm_compute; reflexivity).
      intros n I Q. rewrite forallb_forall in B. specialize (B n I). rewrite <- Q in B. discriminate B.
    - reflexivity.
    - apply (RK (fun j => j <> "Temp")). intros j [<-|[<-|[]]]; discriminate.
    - left. reflexivity.
    - right. left. split; [reflexivity|]. left. exists 25%Z. reflexivity.
    - intros x H. assert (S : spelled "mi" = "MI") by reflexivity. rewrite S in H. cbn [has_char] in H.
      apply orb_true_iff in H. destruct H as [H|H]; [apply Ascii.eqb_eq in H; rewrite H; reflexivity|].
      apply orb_true_iff in H. destruct H as [H|H]; [apply Ascii.eqb_eq in H; rewrite H; reflexivity|discriminate H].
    - apply (cs_multi "double" "MI" (zi 25%Z)); [discriminate|discriminate|vm_compute; lia].
    - intros [|[|i]] x X.
      + injection X as <-. cbv [extent]. cbn [Ascii.eqb Bool.eqb nth]. right. right. right.
        exists "M"%char, [("R"%char, Some 2); ("E"%char, Some 1)], [("N"%char, Some 2)].
        split; [reflexivity|]. split; [reflexivity|]. split; [exact demo_sizes|]. intros [Q|[]]. discriminate Q.
      + injection X as <-. cbv [extent]. cbn [Ascii.eqb Bool.eqb nth]. right. left. split; reflexivity.
      + destruct i; discriminate X.
    - intro H. discriminate H. }
  split; [exact V1|]. split; [|vm_compute; reflexivity].
  assert (A2 : m_res (run_op demo (OAddAttr "Temp_Units" (VStr false "kelvin")) warm) = Ok tt) by (vm_compute; reflexivity).
  apply step_ok in A2. change (step demo warm (OAddAttr "Temp_Units" (VStr false "kelvin"))) with warm_units in A2.
  refine (C86_attribute demo VWrite warm warm_units _ "Temp_Units" (VStr false "kelvin") false "kelvin" cv10 demo_db_ok demo_rules_tidy DO1 CO1
      IS1 _ V1 A2 eq_refl eq_refl _ _ _ _ _ _ _).
  - intro Q. assert (Q2 : match custom warm with None => true | _ => false end = false) by (vm_compute; reflexivity). rewrite Q in Q2. discriminate Q2.
  - vm_compute. reflexivity.
  - intros r Q. discriminate Q.
  - intros r Q. discriminate Q.
  - exists "Temp", "Units". split; [reflexivity|]. split; [reflexivity|]. right. split; [|intros r Q; discriminate Q].
    vm_compute. discriminate.
  - assert (B : forallb (fun n => negb (String.eqb (replace "GLOBAL_" "" "Temp_Units") (replace "GLOBAL_" "" n))) (dkeys cv10) = true) by (vm_compute; reflexivity).
    intros n I Q. rewrite forallb_forall in B. specialize (B n I). apply negb_true_iff in B. apply String.eqb_neq in B. exact (B Q).
  - intros _ _. vm_compute. reflexivity.
  - apply (RK (fun j => j <> "Temp_Units")). intros j [<-|[<-|[]]]; discriminate.
Qed.

(** Two variables that are valid each, the second states another size for the
    custom dimension x: the report blames the first. *)
Definition rows (n : nat) : value := VList (repeat (zl [1; 2]%Z) n).
Theorem C86_refuted :
  let o := run demo demo_sofa [OAddVar "Aa" (rows 3) "double" (Some "xr")] in
  let o' := run demo o [OAddVar "Bb" (rows 4) "double" (Some "xr")] in
  is_ok (m_res (verify demo HRaise VWrite o)) = true
  /\ is_ok (m_res (verify demo HRaise VWrite (run demo o' [ODel "Aa"]))) = true
  /\ m_res (verify demo HReturn VWrite o')
     = Ok (Some (err_head +++ "Detected variables of wrong shape:" +++ nl
                 +++ "- Aa has shape (3, 2) but must have (X=4, R=2)" +++ nl
                 +++ "- Aa has shape (3, 2) but must have (X=4, R=2)" +++ nl)).
Proof. cbv zeta. split; [|split]; vm_compute; reflexivity. Qed.
Print Assumptions C86_refuted.

(** deleting the unit is possible, deleting the variable is not as long as it has
    a unit; one of two variables with the same custom dimension can be deleted *)
Example C87_case :
  is_ok (m_res (verify demo HRaise VWrite (run demo warm_units [ODel "Temp_Units"]))) = true
  /\ is_ok (m_res (verify demo HRaise VWrite (run demo warm_units [ODel "Temp"]))) = false
  /\ is_ok (m_res (verify demo HRaise VWrite (run demo warm_units [ODel "Temp_Units"; ODel "Temp"]))) = true
  /\ is_ok (m_res (verify demo HRaise VWrite (run demo demo_sofa [OAddVar "Aa" (rows 3) "double" (Some "xr");
              OAddVar "Bb" (rows 3) "double" (Some "xr"); ODel "Aa"]))) = true.
Proof. split; [|split; [|split]]; vm_compute; reflexivity. Qed.

(** the theorem applied: the variable can not be spared, its unit can *)
Example C87_case_spare :
  let e := Entry None (Some "MI") "double" (VScal EObj) (Some "") in
  let u := Entry None None "attribute" (VScal EObj) (Some "") in
  ~ spare demo cv10 warm_units "Temp" e /\ spare demo cv10 warm_units "Temp_Units" u.
Proof.
  cbv zeta. split.
  - intros [_ B _]. refine (B _ _ "Units" (Entry None None "attribute" (VScal EObj) (Some "")) _ _ _ _); try (vm_compute; reflexivity).
    assert (Q : dmem "Temp_Units" (pub warm_units) = true) by (vm_compute; reflexivity). exact (proj1 (dmem_In _ _) Q).
  - assert (CO : convention_of demo warm_units cv10) by (apply in_hrir_ok; vm_compute; reflexivity).
    assert (DO : dicts_ok warm_units) by (apply dicts_check; vm_compute; reflexivity).
    assert (V0 : is_ok (m_res (verify demo HRaise VWrite warm_units)) = true) by (vm_compute; reflexivity).
    assert (A1 : m_res (run_op demo (ODel "Temp_Units") warm_units) = Ok tt) by (vm_compute; reflexivity).
    apply step_ok in A1. change (run_op demo (ODel "Temp_Units")) with (del_attr "Temp_Units") in A1.
    assert (ST : states cv10 warm_units "Temp_Units" = []) by (vm_compute; reflexivity).
    assert (DE : declared cv10 warm_units "Temp_Units" = Some (Entry None None "attribute" (VScal EObj) (Some ""))) by (vm_compute; reflexivity).
    destruct (C87_deleting_partial demo VWrite warm_units _ _ "Temp_Units" cv10 demo_db_ok demo_rules_tidy DO CO V0 A1) as [e [D IFF]].
    + split; intros c; rewrite ST; [intros a n []|intros []].
    + intros [_ [e0 [d0 [D0 [E0 _]]]]]. rewrite DE in D0. injection D0 as <-. discriminate E0.
    + rewrite DE in D. injection D as <-. apply IFF. vm_compute. reflexivity.
Qed.

(** a variable whose size only another one uses *)
Theorem C87_refuted :
  let o := run demo demo_sofa [OAddVar "Aa" (zl [1; 2; 3]%Z) "double" (Some "ix");
                               OAddVar "Bb" (VList [zl [1; 2; 3]; zl [1; 2; 3]]%Z) "double" (Some "rr, rx")] in
  is_ok (m_res (verify demo HRaise VWrite o)) = true
  /\ is_ok (m_res (verify demo HRaise VWrite (run demo o [ODel "Aa"]))) = false.
Proof. cbv zeta. split; vm_compute; reflexivity. Qed.
Print Assumptions C87_refuted.
