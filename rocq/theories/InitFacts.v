(** Lemmas about creating objects. *)
From Verif Require Import Base PyStr PyNum NdArray Sofa Verify Upgrade SpecAttr SpecInit
  BaseFacts StrFacts AttrFacts OpFacts.
From Coq Require Import RelationClasses.
Open Scope string_scope.
Open Scope list_scope.

Lemma bind_Ok {A B} (m : M A) (f : A -> M B) o o2 ev b :
  bind m f o = (o2, ev, Ok b) <->
  exists o1 e1 a e2, m o = (o1, e1, Ok a) /\ f a o1 = (o2, e2, Ok b) /\ ev = e1 ++ e2.
Proof.
  unfold bind. destruct (m o) as [[o1 e1] [a|e]]; split.
  - destruct (f a o1) as [[o3 e3] r] eqn:F. intro H. inversion H; subst.
    exists o1, e1, a, e3. auto.
  - intros [o1' [e1' [a' [e2 [H1 [H2 H3]]]]]]. inversion H1; subst. rewrite H2. reflexivity.
  - discriminate.
  - intros [o1' [e1' [a' [e2 [H1 _]]]]]. discriminate.
Qed.

Lemma set_attr_Ok name v o o' ev u :
  set_attr name v o = (o', ev, Ok u) -> name <> "protected" ->
  exists w, normalize v = Ok w /\ o' = with_pub o (dset name w (pub o)) /\ ev = [].
Proof.
  intros H N.
  destruct (set_attr_cases name v o) as [[e K]|[[b [K _]]|[w [K1 [_ [K2 _]]]]]].
  - rewrite K in H. discriminate.
  - contradiction.
  - rewrite K2 in H. inversion H; subst. eauto.
Qed.

(** what is stored for an entry when an object is created *)
Definition stored (e : entry) : res value := let? v := init_default e in normalize v.

Record other_same (o o' : sofa) : Prop := {
  os_conv : conv o' = conv o; os_custom : custom o' = custom o;
  os_ro : ro o' = ro o; os_prot : prot o' = prot o;
  os_dims : dims o' = dims o; os_api : api o' = api o }.

Global Instance other_same_refl : Reflexive other_same.
Proof. intro o; constructor; reflexivity. Qed.
Global Instance other_same_trans : Transitive other_same.
Proof. intros a b c [] []; constructor; congruence. Qed.

Lemma other_same_with_pub o p : other_same o (with_pub o p).
Proof. constructor; reflexivity. Qed.

Lemma init_loop l : forall o o' ev u,
  mfor l (fun kv : string * entry => do v <- lift (init_default (snd kv)); set_attr (fst kv) v) o
    = (o', ev, Ok u) ->
  NoDup (map fst l) -> ~ In "protected" (map fst l) ->
  other_same o o' /\ ev = []
  /\ (forall k e, In (k, e) l -> exists w, stored e = Ok w /\ dget k (pub o') = Some w)
  /\ (forall k, ~ In k (map fst l) -> dget k (pub o') = dget k (pub o)).
Proof.
  induction l as [|[k e] l IH]; intros o o' ev u H ND NP.
  - cbn in H. inversion H; subst. split; [reflexivity|]. split; [reflexivity|].
    split; [intros k e []|reflexivity].
  - cbn [mfor] in H. apply bind_Ok in H. destruct H as [o1 [e1 [a [e2 [H1 [H2 H3]]]]]].
    cbn [fst snd] in H1. apply bind_Ok in H1. destruct H1 as [o0 [e0 [v [e3 [H4 [H5 H6]]]]]].
    unfold lift in H4. inversion H4 as [[HA HB HC]]; subst. clear H4.
    cbn in NP. inversion ND as [|? ? N1 N2]; subst.
    apply set_attr_Ok in H5; [|intros ->; apply NP; left; reflexivity].
    destruct H5 as [w [K1 [K2 K3]]]. subst.
    destruct (IH _ _ _ _ H2 N2) as [I1 [I2 [I3 I4]]]; [tauto|].
    split; [transitivity (with_pub o0 (dset k w (pub o0))); [apply other_same_with_pub|exact I1]|].
    split; [subst; reflexivity|].
    split.
    + intros k' e' [Hin|Hin]; [|eauto].
      inversion Hin; subst. exists w. split; [unfold stored; rewrite HC; exact K1|].
      rewrite I4 by exact N1. cbn. apply dget_dset_same.
    + intros k' Hn. cbn in Hn. rewrite I4 by tauto. cbn. apply dget_dset_other.
      intro C. apply Hn. left; congruence.
Qed.

(** assigning a list of strings *)
Lemma sets_Ok l : forall o o' ev u,
  mfor l (fun ks : string * string => set_attr (fst ks) (VStr false (snd ks))) o
    = (o', ev, Ok u) -> NoDup (map fst l) -> ~ In "protected" (map fst l) ->
  other_same o o' /\ ev = []
  /\ (forall k, dget k (pub o') = match dget k l with
                                  | Some s => Some (VStr false s)
                                  | None => dget k (pub o)
                                  end).
Proof.
  induction l as [|[k s] l IH]; intros o o' ev u H ND NP.
  - cbn in H. inversion H; subst. split; [reflexivity|]. split; reflexivity.
  - cbn [mfor] in H. apply bind_Ok in H. destruct H as [o1 [e1 [a [e2 [H1 [H2 H3]]]]]].
    cbn [fst snd] in H1. cbn in NP. inversion ND as [|? ? N1 N2]; subst.
    apply set_attr_Ok in H1; [|intros ->; apply NP; left; reflexivity].
    destruct H1 as [w [K1 [K2 K3]]]. cbn in K1. inversion K1; subst.
    destruct (IH _ _ _ _ H2 N2) as [I1 [I2 I3]]; [tauto|].
    split; [transitivity (with_pub o (dset k (VStr false s) (pub o))); [apply other_same_with_pub|exact I1]|].
    split; [subst; reflexivity|].
    intro k'. rewrite I3. cbn. destruct (String.eqb_spec k' k) as [->|N].
    + apply dget_None in N1. unfold dkeys in N1. rewrite N1. apply dget_dset_same.
    + destruct (dget k' l); [reflexivity|]. apply dget_dset_other. exact N.
Qed.

(** stored defaults *)
Lemma prod_squeeze s : prod s = prod (sh_squeeze s).
Proof.
  unfold sh_squeeze. induction s as [|n s IH]; cbn; [reflexivity|].
  destruct (Nat.eqb_spec n 1) as [->|N]; cbn; lia.
Qed.

Lemma squeeze_app a b : sh_squeeze (a ++ b) = sh_squeeze a ++ sh_squeeze b.
Proof. apply filter_app. Qed.

Lemma squeeze_ones n : sh_squeeze (repeat 1 n) = [].
Proof. induction n; cbn; auto. Qed.

Lemma squeeze_pad1 n s : sh_squeeze (pad1 n s) = sh_squeeze s.
Proof. unfold pad1. rewrite squeeze_app, squeeze_ones. apply app_nil_r. Qed.

Lemma squeeze_atleast_2d s : sh_squeeze (sh_atleast_2d s) = sh_squeeze s.
Proof. destruct s as [|n [|m s]]; reflexivity. Qed.

Lemma squeeze_atleast_nd s n : sh_squeeze (sh_atleast_nd s n) = sh_squeeze s.
Proof.
  unfold sh_atleast_nd. rewrite squeeze_pad1.
  destruct n as [|[|[|n]]]; destruct s as [|a [|b [|c s]]]; cbn; try reflexivity.
  all: destruct (Nat.eqb a 1); cbn; try reflexivity; destruct (Nat.eqb b 1); reflexivity.
Qed.

Lemma pad1_length n s : List.length (pad1 n s) = Nat.max n (List.length s).
Proof. unfold pad1. rewrite app_length, repeat_length. lia. Qed.

Lemma stored_holds e w : stored e = Ok w -> holds_default e w.
Proof.
  unfold stored, holds_default, init_default.
  destruct (e_default e) as [b s|x|a|l] eqn:E; cbn.
  - intro H; inversion H; reflexivity.
  - destruct x; intro H; inversion H; reflexivity.
  - intro H; inversion H; reflexivity.
  - destruct (e_dims e) as [d|] eqn:D; cbn; [|discriminate].
    unfold atleast_nd. intro H. apply rbind_Ok in H. destruct H as [v [H1 H2]].
    apply rbind_Ok in H1. destruct H1 as [a [H1 H3]]. inversion H3; subst. clear H3.
    apply rbind_Ok in H1. destruct H1 as [b [H1 H3]]. inversion H3; subst. clear H3.
    cbn in H2. inversion H2; subst. eexists _, b, d. split; [reflexivity|].
    split; [exact H1|]. split; [|split; [reflexivity|]].
    + split; [reflexivity|]. split; [reflexivity|]. cbn. apply squeeze_atleast_nd.
    + unfold a_ndim, sh_atleast_nd. cbn [a_shape reshape]. rewrite pad1_length.
      unfold first_alt. lia.
Qed.

(** ** verify with issue_handling='raise' adds nothing *)
Lemma verify_rest_raise norm E m o :
  same o (m_obj (verify_rest norm E HRaise m o)).
Proof.
  unfold verify_rest.
  apply rel_bind; [typeclasses eauto | reflexivity |].
  intros o' o1 e1 H. inversion H; subst. clear H.
  apply rel_bind; [typeclasses eauto | reflexivity |].
  cbn [h_raise negb when]. intros u o2 e2 _.
  set (keys := dkeys _). set (miss := missing _). clearbody keys miss.
  revert o2.
  match goal with |- forall o5, same _ (m_obj (?m o5)) => change (always same m) end.
  alw; [alw|intro o3]. alw; [alw|intro terr].
  destruct (negb _ && negb _).
  - alw; [alw|intros r]; alw.
  - alw; [alw|intro o4]. alw; [alw|intro nerr].
    alw; [destruct (custom o4)|intro cerr].
    + alw; [alw|intro c]. alw; [alw|intro v].
      destruct (norm c v) as [ev r].
      alw; [|intros _]; [apply always_mfor; [typeclasses eauto|typeclasses eauto|intros; alw]|].
      alw; [alw|intros ?]; alw.
    + alw.
    + alw; [alw|intro serr]. alw; [alw|intro o5].
      alw; [alw|intro rerr]. alw; [alw|intro uerr]. alw; [alw|intro dmsg].
      alw; [alw|intro pmsg].
      destruct (h_ignore HRaise); [alw|]. alw; [alw|intros ?]; alw.
Qed.

Lemma verify_raise_pub norm E m o :
  pub (m_obj (verify_gen norm E HRaise m o)) = pub o
  /\ ro (m_obj (verify_gen norm E HRaise m o)) = ro o.
Proof.
  destruct (verify_gen_obj norm E HRaise m o) as [[H _]|[o1 [H1 [H2 _]]]].
  - rewrite H. split; reflexivity.
  - rewrite H2. destruct (verify_rest_raise norm E m o1) as [S1 S2 S3 S4].
    rewrite S1, S4. assert (D := reset_data_same E o). rewrite H1 in D.
    destruct D as [D1 D2 D3]. cbn in *. split; assumption.
Qed.

(** ** The constructor *)

Lemma NoDup_creation E : NoDup (map fst (creation_entries E)).
Proof. cbn. repeat constructor; cbn; intuition discriminate. Qed.

Lemma convention_to_sofa_Ok E mandatory o o' ev u :
  convention_to_sofa E mandatory o = (o', ev, Ok u) ->
  NoDup (dkeys (conv o)) -> ~ In "protected" (dkeys (conv o)) -> pub o = [] ->
  conv o' = conv o /\ custom o' = custom o /\ ro o' = ro o /\ prot o' = true
  /\ new_content E (conv o) mandatory (pub o').
Proof.
  intros H ND NP P0. unfold convention_to_sofa in H.
  apply bind_Ok in H. destruct H as [o1 [e1 [a [e2 [H1 [H2 _]]]]]].
  inversion H1; subst. clear H1. cbv zeta in H2.
  apply bind_Ok in H2. destruct H2 as [o2 [e3 [[] [e4 [H3 [H4 _]]]]]].
  set (l := filter (fun kv => is_mandatory (e_flags (snd kv)) || negb mandatory) (conv a)) in *.
  assert (NDl : NoDup (map fst l)) by (apply (NoDup_filter_keys _ _ ND)).
  assert (NPl : ~ In "protected" (map fst l)).
  { intro C. apply NP. rewrite in_map_iff in C. destruct C as [x [X1 X2]].
    apply filter_In in X2. destruct X2 as [X2 _]. unfold dkeys. rewrite in_map_iff. eauto. }
  destruct (init_loop _ _ _ _ _ H3 NDl NPl) as [I1 [_ [I2 I3]]].
  apply bind_Ok in H4. destruct H4 as [o3 [e5 [[] [e6 [H5 [H6 _]]]]]].
  inversion H5; subst o3 e5. clear H5.
  assert (S : exists o4 e7 e8, mfor (creation_entries E)
      (fun ks : string * string => set_attr (fst ks) (VStr false (snd ks))) (with_prot o2 false)
      = (o4, e7, Ok tt) /\ set_protected true o4 = (o', e8, Ok u)).
  { apply bind_Ok in H6. destruct H6 as [p1 [f1 [[] [g1 [A1 [A2 _]]]]]].
    apply bind_Ok in A2. destruct A2 as [p2 [f2 [[] [g2 [B1 [B2 _]]]]]].
    apply bind_Ok in B2. destruct B2 as [p3 [f3 [[] [g3 [C1 [C2 _]]]]]].
    apply bind_Ok in C2. destruct C2 as [p4 [f4 [[] [g4 [D1 [D2 _]]]]]].
    apply bind_Ok in D2. destruct D2 as [p5 [f5 [[] [g5 [E1 [E2 _]]]]]].
    apply bind_Ok in E2. destruct E2 as [p6 [f6 [[] [g6 [F1 [F2 _]]]]]].
    eexists p6, _, _. split; [|exact F2].
    unfold creation_entries. cbn [mfor fst snd].
    unfold bind. change "sofar SOFA API for Python (pyfar.org)" with api_name.
    rewrite A1, B1, C1, D1, E1, F1. reflexivity. }
  destruct S as [o4 [e7 [e8 [S1 S2]]]].
  apply sets_Ok in S1; [|apply NoDup_creation|cbn; intuition discriminate].
  destruct S1 as [J1 [_ J2]].
  inversion S2; subst. clear S2.
  destruct I1 as [I1a I1b I1c I1d I1e I1f]. destruct J1 as [J1a J1b J1c J1d J1e J1f].
  cbn [with_prot conv custom ro prot dims api pub] in *.
  split; [congruence|]. split; [congruence|]. split; [congruence|]. split; [reflexivity|].
  intro k. rewrite J2. destruct (dget k (creation_entries E)) as [s|]; [reflexivity|].
  destruct (dget k (conv a)) as [e|] eqn:DK.
  - destruct (is_mandatory (e_flags e) || negb mandatory) eqn:EM.
    + destruct (I2 k e) as [w [W1 W2]].
      { apply filter_In. split; [apply dget_In; exact DK | exact EM]. }
      exists w. split; [exact W2 | apply stored_holds; exact W1].
    + rewrite I3; [rewrite P0; reflexivity|].
      intro C. rewrite in_map_iff in C. destruct C as [[k' e'] [C1 C2]]. cbn in C1. subst.
      apply filter_In in C2. destruct C2 as [C2 C3]. cbn in C3.
      apply (In_dget _ _ _ ND) in C2. rewrite DK in C2. inversion C2; subst. congruence.
  - rewrite I3; [rewrite P0; reflexivity|].
    intro C. apply dget_None in DK. apply DK. rewrite in_map_iff in C. destruct C as [x [X1 X2]].
    apply filter_In in X2. destruct X2 as [X2 _]. unfold dkeys. rewrite in_map_iff. eauto.
Qed.

(** Facts about a successful constructor call that do not need well-formed
    files. The convention of the object is the loaded one unless verify
    reloaded it. *)
Lemma sofa_init_Ok E c mandatory version vo ev o :
  sofa_init E c mandatory version vo = (ev, Ok o) ->
  exists cv, load_convention E c version = Ok cv
    /\ (~ In "protected" (dkeys cv) ->
        new_content E cv mandatory (pub o) /\ ro o = ro_of_convention cv /\ prot o = true
        /\ custom o = None
        /\ (conv o = cv \/
            exists o1, conv o1 = cv /\ pub o1 = pub o /\ custom o1 = None
                       /\ m_res (reset_convention E o1) = Ok tt
                       /\ conv o = conv (m_obj (reset_convention E o1)))).
Proof.
  unfold sofa_init. destruct (load_convention E c version) as [cv|] eqn:EL; [|discriminate].
  destruct (init_body E cv mandatory vo empty_sofa) as [[o' ev'] [u|x]] eqn:EB; [|discriminate].
  intro H. inversion H; subst. clear H. exists cv. split; [reflexivity|]. intro NP.
  unfold init_body in EB.
  apply bind_Ok in EB. destruct EB as [o1 [e1 [[] [e2 [H1 [H2 _]]]]]].
  inversion H1; subst. clear H1.
  apply bind_Ok in H2. destruct H2 as [o2 [e3 [[] [e4 [H3 [H4 _]]]]]].
  apply convention_to_sofa_Ok in H3;
    [|cbn; eapply load_convention_NoDup; eassumption|exact NP|reflexivity].
  cbn [with_conv with_ro conv custom ro prot empty_sofa] in H3.
  destruct H3 as [K1 [K2 [K3 [K4 K5]]]].
  apply bind_Ok in H4. destruct H4 as [o3 [e5 [e [e6 [H5 [H6 _]]]]]].
  unfold lift in H5. inversion H5; subst o3 e5. clear H5.
  apply bind_Ok in H6. destruct H6 as [o4 [e7 [ver [e8 [H7 [H8 _]]]]]].
  assert (o4 = o2) as ->.
  { destruct vo; unfold lift, ret in H7; inversion H7; reflexivity. }
  apply bind_Ok in H8. destruct H8 as [o5 [e9 [[] [e10 [H9 [H10 _]]]]]].
  unfold set_protected, modify in H10. inversion H10; subst. clear H10.
  destruct (ver && negb mandatory).
  - apply bind_Ok in H9. destruct H9 as [o6 [e11 [r [e12 [H11 [H12 _]]]]]].
    inversion H12; subst. clear H12. unfold verify0 in H11.
    match type of H11 with verify_gen ?n E HRaise VRead o2 = _ =>
      destruct (verify_raise_pub n E VRead o2) as [V1 V2];
      destruct (verify_gen_obj n E HRaise VRead o2) as [[_ [x [V3 _]]]|[o1 [V3 [V4 [_ [_ V6 V7 _]]]]]];
      rewrite H11 in *
    end; [discriminate|].
    cbn in *. rewrite V1, V2.
    assert (D := reset_convention_cases E o2). rewrite K2 in D.
    assert (C1 : custom o1 = None).
    { destruct D as [[x D]|[c' [b [v [cv' [_ [_ [_ [_ D]]]]]]]]]; rewrite V3 in D; inversion D; auto. }
    repeat (split; [congruence || assumption|]).
    right. exists o2. rewrite V3. cbn. auto 6.
  - assert (o5 = o2) as ->.
    { apply bind_Ok in H9. destruct H9 as [o6 [e11 [s [e12 [H11 [H12 _]]]]]].
      unfold lift in H11. inversion H11; subst.
      destruct s; unfold when, ret, emit in H12; cbn in H12; inversion H12; reflexivity. }
    cbn. split; [exact K5|]. repeat (split; [congruence || assumption || reflexivity|]).
    left. first [assumption | reflexivity].
Qed.

(** ** Well-formed convention files *)

Lemma file_ok_prefix f c :
  file_ok f -> startswith (c +++ "_") (fst f) = true ->
  exists v, fst f = c +++ "_" +++ v +++ ".json" /\ file_version (fst f) = v
    /\ has_char "_" c = false /\ v <> "latest" /\ float_str v = Some v
    /\ ~ In "protected" (dkeys (sofar_keys (snd f)))
    /\ states_own "GLOBAL_SOFAConventions" c (sofar_keys (snd f))
    /\ states_own "GLOBAL_SOFAConventionsVersion" v (sofar_keys (snd f)).
Proof.
  intros [c' [v [H1 [H2 [H3 [H4 [H5 [HP [H6 H7]]]]]]]]] HS.
  apply prefix_spec in HS. destruct HS as [r HS]. rewrite H1 in HS.
  rewrite sapp_assoc in HS. cbn in HS.
  assert (HV : has_char "_" (v +++ ".json") = false) by (rewrite has_char_app, H3; reflexivity).
  symmetry in HS. apply split_unique in HS; [|exact H2|exact HV].
  destruct HS as [-> ->]. exists v. split; [exact H1|].
  split; [|tauto]. rewrite H1. unfold file_version. cbn.
  rewrite after_last_app by exact HV. apply (drop_end_app v ".json").
Qed.

Lemma argmax_aux_In {A} (l : list (dec * A)) b : In (argmax_aux l b) (snd b :: map snd l).
Proof.
  revert b. induction l as [|x l IH]; intro b; cbn; [tauto|].
  destruct (dec_ltb (fst b) (fst x)).
  - destruct (IH x) as [H|H]; [right; left; exact H | right; right; exact H].
  - destruct (IH b) as [H|H]; [left; exact H | right; right; exact H].
Qed.

(** what is loaded comes from a file of that convention *)
Lemma load_convention_file E c version cv :
  load_convention E c version = Ok cv ->
  exists f, In f (db E) /\ startswith (c +++ "_") (fst f) = true /\ cv = sofar_keys (snd f)
    /\ (version <> "latest" -> file_version (fst f) = version).
Proof.
  unfold load_convention. intro H. apply rbind_Ok in H. destruct H as [nv [_ H]].
  destruct (filter _ (db E)) as [|f0 fs] eqn:EF; [discriminate|].
  assert (HF : forall f, In f (f0 :: fs) -> In f (db E) /\ startswith (c +++ "_") (fst f) = true).
  { intros f Hf. rewrite <- EF in Hf. apply filter_In in Hf. exact Hf. }
  apply rbind_Ok in H. destruct H as [raw [H1 H2]]. inversion H2; subst. clear H2.
  destruct (String.eqb_spec version "latest") as [->|N].
  - apply rbind_Ok in H1. destruct H1 as [vs [H1 H2]].
    destruct vs as [|x t]; [discriminate|]. inversion H2; subst. clear H2.
    apply rmap_Ok_Forall2 in H1.
    assert (HI := argmax_aux_In t x). change (snd x :: map snd t) with (map snd (x :: t)) in HI.
    rewrite in_map_iff in HI. destruct HI as [[d a] [HI1 HI2]]. cbn in HI1. subst a.
    assert (G : exists f, In f (f0 :: fs) /\ snd f = argmax_aux t x).
    { clear -H1 HI2. revert HI2. set (r := argmax_aux t x). clearbody r. intro HI2.
      remember (x :: t) as vs. clear Heqvs. induction H1 as [|y z ys zs Hy Hys IH]; [destruct HI2|].
      destruct HI2 as [->|HI2].
      - destruct (parse_float _); [|discriminate]. inversion Hy; subst. exists y. split; [left|]; auto.
      - destruct (IH HI2) as [f [F1 F2]]. exists f. split; [right; exact F1 | exact F2]. }
    destruct G as [f [G1 G2]]. destruct (HF f G1) as [G3 G4].
    exists f. rewrite <- G2. repeat split; auto. congruence.
  - destruct (find _ (f0 :: fs)) as [f|] eqn:EFd; [|discriminate]. inversion H1; subst.
    apply find_some in EFd. destruct EFd as [F1 F2]. apply String.eqb_eq in F2.
    destruct (HF f F1) as [G3 G4]. exists f. repeat split; auto.
Qed.

Lemma NoDup_map_inj {A B} (f : A -> B) l x y :
  NoDup (map f l) -> In x l -> In y l -> f x = f y -> x = y.
Proof.
  induction l as [|a l IH]; cbn; intros ND Hx Hy Hf; [tauto|].
  inversion ND as [|? ? N1 N2]; subst.
  destruct Hx as [->|Hx], Hy as [->|Hy]; auto.
  - exfalso. apply N1. rewrite Hf. apply in_map. exact Hy.
  - exfalso. apply N1. rewrite <- Hf. apply in_map. exact Hx.
Qed.

(** the version stated in a file leads to the same file *)
Lemma load_own_version E c version cv :
  db_ok E -> load_convention E c version = Ok cv ->
  exists v, load_convention E c v = Ok cv
    /\ (version <> "latest" -> v = version)
    /\ ~ In "protected" (dkeys cv)
    /\ states_own "GLOBAL_SOFAConventions" c cv
    /\ states_own "GLOBAL_SOFAConventionsVersion" v cv.
Proof.
  intros [ND OK] HL.
  destruct (load_convention_file _ _ _ _ HL) as [f [F1 [F2 [F3 F4]]]].
  destruct (file_ok_prefix f c (OK f F1) F2) as [v [V1 [V2 [V3 [V4 [V5 [VP [V6 V7]]]]]]]].
  exists v. subst cv. split; [|split; [intro N; rewrite <- (F4 N); symmetry; exact V2 | tauto]].
  unfold load_convention in *. apply rbind_Ok in HL. destruct HL as [nv [HL1 HL2]].
  rewrite HL1. cbn [rbind].
  assert (FI : In f (filter (fun f => startswith (c +++ "_") (fst f)) (db E))).
  { apply filter_In. split; assumption. }
  destruct (filter _ (db E)) as [|f0 fs] eqn:EF; [destruct FI|].
  rewrite (eqb_neq_s _ _ V4).
  destruct (find (fun f => String.eqb (file_version (fst f)) v) (f0 :: fs)) as [g|] eqn:EG.
  - apply find_some in EG. destruct EG as [G1 G2]. apply String.eqb_eq in G2.
    rewrite <- EF in G1. apply filter_In in G1. destruct G1 as [G1 G3].
    destruct (file_ok_prefix g c (OK g G1) G3) as [v' [W1 [W2 _]]].
    assert (v' = v) by congruence. subst v'.
    assert (g = f) by (eapply (NoDup_map_inj fst); [exact ND|exact G1|exact F1|congruence]).
    subst g. reflexivity.
  - exfalso. eapply (find_none _ _ EG f) in FI.
    rewrite V2, eqb_refl_s in FI. discriminate.
Qed.

Lemma ro_of_convention_spec cv k e :
  dget k cv = Some e -> is_read_only (e_flags e) = true -> in_ro k (ro_of_convention cv) = true.
Proof.
  intros H1 H2. unfold ro_of_convention.
  assert (HI : In (k, e) (filter (fun kv => is_read_only (e_flags (snd kv))) cv)).
  { apply filter_In. split; [apply dget_In; exact H1 | exact H2]. }
  destruct (filter _ cv) as [|[k1 e1] [|x l]]; [destruct HI| |].
  - destruct HI as [HI|[]]. inversion HI; subst. cbn.
    assert (P : String.prefix k k = true) by (apply prefix_spec; exists ""; rewrite sapp_nil_r; reflexivity).
    destruct k; cbn in *; [reflexivity|]. rewrite P. reflexivity.
  - cbn [in_ro]. apply smem_In. rewrite in_map_iff. exists (k, e). split; [reflexivity|exact HI].
Qed.

Lemma states_own_stored E cv key own mandatory p :
  states_own key own cv -> new_content E cv mandatory p ->
  dget key (creation_entries E) = None ->
  exists b, dget key p = Some (VStr b own).
Proof.
  intros [e [b [H1 [H2 [H3 H4]]]]] N HC. specialize (N key). rewrite HC, H1, H2 in N. cbn in N.
  destruct N as [w [N1 N2]]. unfold holds_default in N2. rewrite H4 in N2. subst. eauto.
Qed.

(** objects returned by the constructor follow their convention *)
Lemma armed_init E c mandatory version vo ev o :
  db_ok E -> sofa_init E c mandatory version vo = (ev, Ok o) ->
  exists v, armed_with E o c v (conv o) /\ prot o = true
    /\ load_convention E c version = Ok (conv o) /\ new_content E (conv o) mandatory (pub o)
    /\ ro o = ro_of_convention (conv o) /\ custom o = None
    /\ (version <> "latest" -> v = version).
Proof.
  intros DB HI. destruct (sofa_init_Ok _ _ _ _ _ _ _ HI) as [cv [HL HK]].
  destruct (load_own_version _ _ _ _ DB HL) as [v [L1 [L2 [LP [L3 L4]]]]].
  destruct (HK LP) as [K1 [K2 [K3 [K4 K5]]]].
  destruct (states_own_stored _ _ _ _ _ _ L3 K1 eq_refl) as [b1 P1].
  destruct (states_own_stored _ _ _ _ _ _ L4 K1 eq_refl) as [b2 P2].
  assert (C : conv o = cv).
  { destruct K5 as [K5|[o1 [J1 [J2 [J3 [J4 J5]]]]]]; [exact K5|].
    destruct (reset_convention_cases E o1) as [[e R]|[c' [b [v' [cv' [R1 [R2 [_ [R4 R]]]]]]]]];
      rewrite R in *; [discriminate|].
    rewrite J2, P1 in R1. inversion R1; subst. rewrite J2, P2 in R2. inversion R2; subst.
    cbn in R4. rewrite L1 in R4. inversion R4; subst. rewrite J5, J3. reflexivity. }
  exists v. rewrite C. split; [|tauto].
  constructor; rewrite ?C; eauto.
  - intros k e H1 H2. rewrite K2. eapply ro_of_convention_spec; eassumption.
  - destruct L3 as [e [b [A1 [A2 [A3 _]]]]]. eauto.
  - destruct L4 as [e [b [A1 [A2 [A3 _]]]]]. eauto.
  - intros cu k e H. rewrite K4 in H. discriminate.
Qed.
