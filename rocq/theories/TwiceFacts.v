(** Calling verify a second time. *)
From Verif Require Import Base PyStr PyNum NdArray Sofa Verify SpecAttr SpecInit SpecVerify SpecCrash
  BaseFacts StrFacts AttrFacts OpFacts InitFacts ProtFacts AddDelFacts MissingFacts CoreFacts
  ValidFacts VerifyFacts DictFacts IssueFacts DimFacts CrashFacts.
Open Scope string_scope.
Open Scope list_scope.

(** ** Added data *)
Definition added (ke : string * entry) (kw : string * value) : Prop :=
  fst kw = fst ke /\ normalize (e_default (snd ke)) = Ok (snd kw).

Record grown (o o2 : sofa) (ws : dict value) : Prop := {
  gn_pub : pub o2 = pub o ++ ws;
  gn_conv : conv o2 = conv o;
  gn_custom : custom o2 = custom o }.

Lemma dset_new {A} k (w : A) d : ~ In k (dkeys d) -> dset k w d = d ++ [(k, w)].
Proof.
  induction d as [|[j x] d IH]; intro N; [reflexivity|]. cbn [dset].
  destruct (String.eqb_spec k j) as [->|NE]; [destruct N; left; reflexivity|].
  cbn [app]. f_equal. apply IH. intro I. apply N. right. exact I.
Qed.

Lemma dget_app {A} k (d d' : dict A) : dget k (d ++ d') = match dget k d with Some v => Some v | None => dget k d' end.
Proof. induction d as [|[j x] d IH]; [reflexivity|]. cbn [app dget]. destruct (String.eqb k j); [reflexivity|exact IH]. Qed.

Lemma add_defaults_exact l : forall o, Forall entry_fine l -> NoDup (map fst l) ->
  (forall k, In k (map fst l) -> ~ In k (dkeys (pub o))) ->
  exists o2 ws, add_defaults l o = (o2, [], Ok tt) /\ grown o o2 ws /\ Forall2 added l ws.
Proof.
  induction l as [|[k e] l IH]; intros o F ND NI.
  - exists o, []. split; [reflexivity|]. split; [constructor; [symmetry; apply app_nil_r|reflexivity..]|constructor].
  - inversion F as [|? ? [F1 F2] F3]; subst. cbn [fst snd] in F1, F2. cbn [map fst] in ND. inversion ND as [|? ? N1 N2]; subst.
    destruct (set_attr_cases k (e_default e) (with_prot o false)) as [[x H]|[[bb [P [_ H]]]|[w [N [_ [H _]]]]]].
    + destruct (set_attr_fine k (e_default e) (with_prot o false) F1 F2 eq_refl) as [w H']. rewrite H in H'. discriminate H'.
    + destruct F1 as [_ [_ F1]]. congruence.
    + set (o1 := with_prot (with_pub (with_prot o false) (dset k w (pub (with_prot o false)))) true).
      assert (P1 : pub o1 = pub o ++ [(k, w)]) by (apply dset_new, NI; left; reflexivity).
      destruct (IH o1 F3 N2) as [o2 [ws [A [[G1 G2 G3] FW]]]].
      { intros j J. rewrite P1. unfold dkeys. rewrite map_app. intro I. apply in_app_iff in I. destruct I as [I|[<-|[]]].
        - exact (NI j (or_intror J) I).
        - exact (N1 J). }
      exists o2, ((k, w) :: ws). split; [|split].
      * assert (HH : add_defaults ((k, e) :: l) o = (do_ (do_ set_protected false; do_ set_attr k (e_default e); set_protected true); add_defaults l) o)
          by reflexivity.
        rewrite HH. assert (ST : (do_ set_protected false; do_ set_attr k (e_default e); set_protected true) o = (o1, [], Ok tt)).
        { rewrite (bind_silent (set_protected false) _ o (with_prot o false) tt eq_refl), (bind_silent _ _ _ _ _ H). reflexivity. }
        rewrite (bind_silent _ _ _ _ _ ST). exact A.
      * constructor; [rewrite G1, P1, <- app_assoc; reflexivity|exact G2|exact G3].
      * constructor; [split; [reflexivity|exact N]|exact FW].
Qed.

(** ** Checks of more data *)
Lemma rconcat_more {A} (f : A -> res string) l l' : rconcat f l' = Ok "" -> rconcat f (l ++ l') = rconcat f l.
Proof.
  intro H. induction l as [|x l IH]; cbn [app rconcat]; [exact H|]. rewrite IH. reflexivity.
Qed.

Lemma name_errors_more o l l' : name_errors o l' = Ok "" -> name_errors o (l ++ l') = name_errors o l.
Proof.
  unfold name_errors. intro H. apply rbind_Ok in H. destruct H as [e1 [H1 H]].
  apply rbind_Ok in H. destruct H as [e2 [H2 H]]. apply rbind_Ok in H. destruct H as [e3 [H3 H]].
  apply rbind_Ok in H. destruct H as [e4 [H4 H]].
  assert (Q : section msg_orphan e1 +++ section msg_plain e2 +++ section msg_variable e3
              +++ section msg_reserved e4 = "") by congruence. clear H.
  rewrite !sapp_eq_nil, !section_nil in Q by discriminate. destruct Q as [-> [-> [-> ->]]].
  unfold bullets_if in *. rewrite (rconcat_more _ l l' H1), (rconcat_more _ l l' H2), (rconcat_more _ l l' H3), (rconcat_more _ l l' H4).
  reflexivity.
Qed.

Lemma added_keys l ws : Forall2 added l ws -> dkeys ws = map fst l.
Proof. induction 1 as [|? ? ? ? [Q _] _ IH]; [reflexivity|]. cbn. unfold dkeys in IH. rewrite IH, Q. reflexivity. Qed.

Lemma name_ok_more (d1 d2 : string -> option entry) k t :
  (forall x, d1 x <> None -> d2 x <> None) -> name_ok d1 k t -> name_ok d2 k t.
Proof.
  intros S [H1 H2]. split; [|exact H2]. intro T. destruct (H1 T) as [var [a [Q [N D]]]]. exists var, a.
  split; [exact Q|]. split; [exact N|]. destruct D as [D|D]; [left; apply S; exact D|right; exact D].
Qed.

(** ** The second call *)
Lemma checked_more norm E m ign pw o2 keys keys2 :
  type_errors E o2 keys2 = type_errors E o2 keys -> name_errors o2 keys2 = name_errors o2 keys ->
  match checked norm E m ign "" pw keys o2 with
  | (o3, ev, Err x) => checked norm E m ign "" "" keys2 o2 = (o3, ev, Err x)
  | (o3, ev, Ok (e, w)) => checked norm E m ign "" "" keys2 o2 = (o3, ev, Ok (e, w))
                           \/ exists w', w = pw +++ w' /\ checked norm E m ign "" "" keys2 o2 = (o3, ev, Ok (e, w'))
  end.
Proof.
  intros T N. unfold checked. rewrite T. destruct (type_errors E o2 keys) as [t|x]; [|reflexivity]. cbv zeta.
  destruct (_ && _); [left; reflexivity|].
  assert (C : core norm E m keys2 o2 = core norm E m keys o2) by (unfold core; rewrite N; reflexivity).
  rewrite C. destruct (core norm E m keys o2) as [[o3 ev] [[e w]|x]]; cbn [rbind fst snd]; [|reflexivity].
  right. exists w. split; reflexivity.
Qed.

Lemma verify_second E h m o : db_ok E -> db_tidy E -> db_sound E -> dicts_ok o -> no_flags o -> h <> HRaise ->
  ((exists cv, convention_of E o cv) -> complete E (m_obj (verify E h m o)))
  /\ (verify E h m (m_obj (verify E h m o)) = verify E h m o
      \/ exists keys ev e w, keys <> []
       /\ (forall k, In k keys <-> ~ contained o k /\ contained (m_obj (verify E h m o)) k)
       /\ verify E h m o = (m_obj (verify E h m o), ev ++ told h (added_text keys +++ w) e, answer h (added_text keys +++ w) e)
       /\ verify E h m (m_obj (verify E h m o)) = (m_obj (verify E h m o), ev ++ told h w e, answer h w e)).
Proof.
  intros DB DT DS DO NF NR. assert (DO' : dicts_ok (m_obj (verify E h m o))) by (apply kdict_verify; exact DO).
  unfold verify in *. rewrite (verify_gen_eq _ E h m o) in *.
  destruct (reset_none_or E o) as [[x R]|[o1 R]].
  { split.
    { intros [cv CV]. destruct (unique_reset E o cv DB DO CV) as [o1 [R1 _]]. congruence. }
    left. rewrite (bind_fails _ _ _ _ _ _ R). cbn [m_obj fst].
    rewrite (verify_gen_eq _ E h m o), (bind_fails _ _ _ _ _ _ R). reflexivity. }
  rewrite (bind_silent _ _ _ _ _ R), rest_checked in *.
  assert (HR : h_raise h = false) by (destruct h; [congruence|reflexivity..]). rewrite HR in *. cbn [negb when] in *.
  destruct (reset_iff E o DB DO) as [RI _]. destruct (RI _ R) as [b [c [w [content [V1 [V2 [V3 RT]]]]]]].
  assert (RP := rt_pub _ _ _ RT). assert (RC := rt_conv _ _ _ RT).
  assert (MI : forall k e, In (k, e) (missing o1) -> dget k (sofar_keys content) = Some e /\ is_mandatory (e_flags e) = true /\ ~ In k (dkeys (pub o))).
  { intros k e I. unfold missing in I. apply filter_In in I. destruct I as [I B]. cbn [fst snd] in B.
    apply andb_true_iff in B. destruct B as [B1 B2]. apply negb_true_iff in B2. apply smem_false in B2. rewrite RP in B2.
    split; [|split; [exact B1|exact B2]]. apply (In_dget _ _ _ (rt_nodup _ _ _ RT)) in I. rewrite RC in I.
    unfold declared in I. destruct (dget k (sofar_keys content)); [exact I|]. unfold own_custom in I.
    destruct (custom o) as [cu|] eqn:CU; [|discriminate I]. apply dget_In, filter_In in I. destruct I as [I _].
    destruct DO as [_ DC]. rewrite CU in DC. apply (In_dget _ _ _ DC) in I. rewrite (NF cu k e CU I) in B1. discriminate B1. }
  destruct (add_defaults_exact (missing o1) o1) as [o2 [ws [A [GN FW]]]].
  { apply Forall_forall. intros [k e] I. apply (DT (file_name c (py_str E w), content)); [exact V3|]. apply dget_In. apply (MI k e I). }
  { apply missing_NoDup, (rt_nodup _ _ _ RT). }
  { intros k I. apply in_map_iff in I. destruct I as [[j e] [<- I]]. rewrite RP. apply (MI j e I). }
  rewrite (bind_silent _ _ _ _ _ A), bind_finish in *.
  assert (K2 : dkeys (pub o2) = dkeys (pub o1) ++ map fst (missing o1)).
  { rewrite (gn_pub _ _ _ GN). unfold dkeys at 1. rewrite map_app. fold (dkeys (pub o1)) (dkeys ws). rewrite (added_keys _ _ FW). reflexivity. }
  assert (NEW : forall k v, In (k, v) ws -> exists e, In (k, e) (missing o1) /\ normalize (e_default e) = Ok v).
  { clear -FW. intros k v I. induction FW as [|[j e] [j' v'] l ws [Q N] FW IH]; [destruct I|]. cbn [fst snd] in *. subst j'.
    destruct I as [Q|I]; [injection Q as -> ->; exists e; split; [left; reflexivity|exact N]|].
    destruct (IH I) as [e' [I' N']]. exists e'. split; [right; exact I'|exact N']. }
  (* the object with the new data only *)
  assert (RX : reset_to (sofar_keys content) (with_pub o ws) (with_pub o1 ws)).
  { constructor; [exact RC|apply (rt_nodup _ _ _ RT)|reflexivity|apply (rt_custom _ _ _ RT)]. }
  assert (WN : NoDup (dkeys ws)) by (rewrite (added_keys _ _ FW); apply missing_NoDup, (rt_nodup _ _ _ RT)).
  assert (TX : type_errors E o2 (map fst (missing o1)) = Ok "").
  { apply rconcat_nil. intros k I. rewrite <- (added_keys _ _ FW) in I. apply dget_Some_In in I. destruct I as [v G].
    apply dget_In in G. destruct (NEW k v G) as [e [I N]]. destruct (MI k e I) as [D [M NI]].
    unfold dgetE, getattr. rewrite (gn_conv _ _ _ GN), RC. unfold declared. rewrite D. cbn [rbind].
    assert (GP : dget k (pub o2) = Some v).
    { rewrite (gn_pub _ _ _ GN). rewrite RP. rewrite dget_app. rewrite (proj2 (dget_None _ _) NI). apply In_dget; assumption. }
    rewrite GP. cbn [rbind]. f_equal. apply type_error_iff.
    destruct (DS (file_name c (py_str E w), content) k e V3 D M) as [TY _]. apply TY. apply normalize_added. exact N. }
  assert (NX : name_errors o2 (map fst (missing o1)) = Ok "").
  { rewrite <- (added_keys _ _ FW).
    assert (X : name_errors o2 (dkeys ws) = name_errors (with_pub o1 ws) (dkeys (pub (with_pub o1 ws)))).
    { unfold name_errors. rewrite (gn_conv _ _ _ GN). reflexivity. }
    rewrite X. apply (names_iff _ _ _ RX).
    - intros k I. apply dget_Some_In in I. destruct I as [v G]. apply dget_In in G. cbn [pub with_pub] in G.
      destruct (NEW k v G) as [e [I N]]. destruct (MI k e I) as [D _]. unfold declared. rewrite D. discriminate.
    - intros k e I D'. apply dget_Some_In in I. destruct I as [v G]. apply dget_In in G. cbn [pub with_pub] in G.
      destruct (NEW k v G) as [e' [I N]]. destruct (MI k e' I) as [D [M _]].
      unfold declared in D'. rewrite D in D'. injection D' as <-.
      destruct (DS (file_name c (py_str E w), content) k e' V3 D M) as [_ NO]. cbn [snd] in NO.
      apply (name_ok_more (fun x => dget x (sofar_keys content))); [|exact NO].
      intros x X1. unfold declared. destruct (dget x (sofar_keys content)); [discriminate|congruence]. }
  assert (CM := checked_more (normative_keys E) E m (h_ignore h) (section msg_added (miss_text o1)) o2
    (dkeys (pub o1)) (dkeys (pub o2))). rewrite K2 in CM.
  specialize (CM (rconcat_more _ _ _ TX) (name_errors_more _ _ _ NX)).
  destruct (checked (normative_keys E) E m (h_ignore h) "" (section msg_added (miss_text o1)) (dkeys (pub o1)) o2) as [[o3 ev] r] eqn:CK.
  destruct (checked_stable _ _ _ _ _ _ _ _ _ _ _ CK) as [O3 _].
  assert (MO : m_obj (outcome h (o3, ev, r)) = o3) by (destruct r as [[? ?]|?]; reflexivity). rewrite MO in *.
  assert (P3 : pub o3 = pub o2) by (destruct O3 as [->|[a [d ->]]]; reflexivity).
  assert (C3 : custom o3 = custom o1) by (rewrite <- (gn_custom _ _ _ GN); destruct O3 as [->|[a [d ->]]]; reflexivity).
  assert (V3' : conv o3 = conv o1) by (rewrite <- (gn_conv _ _ _ GN); destruct O3 as [->|[a [d ->]]]; reflexivity).
  assert (KEEP : forall k v, dget k (pub o) = Some v -> dget k (pub o3) = Some v).
  { intros k v G. rewrite P3, (gn_pub _ _ _ GN), RP, dget_app, G. reflexivity. }
  assert (R3 : reset_convention E o3 = (o3, [], Ok tt)).
  { rewrite (reset_eq_glob E o o1 R o3) by (first [exact C3|rewrite (KEEP _ _ V1), V1; reflexivity|rewrite (KEEP _ _ V2), V2; reflexivity]).
    rewrite <- V3', with_conv_same. reflexivity. }
  assert (M3 : missing o3 = []).
  { unfold missing. rewrite V3', P3, K2. destruct (filter _ (conv o1)) as [|[k e] l] eqn:F; [reflexivity|]. exfalso.
    assert (I : In (k, e) ((k, e) :: l)) by (left; reflexivity). rewrite <- F in I. apply filter_In in I. destruct I as [I B].
    cbn [fst snd] in B. apply andb_true_iff in B. destruct B as [B1 B2]. apply negb_true_iff in B2. apply smem_false in B2.
    apply B2. apply in_app_iff. destruct (smem k (dkeys (pub o1))) eqn:SM; [left; apply smem_In; exact SM|].
    right. apply in_map_iff. exists (k, e). split; [reflexivity|]. unfold missing. apply filter_In. split; [exact I|].
    cbn [fst snd]. rewrite B1, SM. reflexivity. }
  split.
  { intros _ cv k e CV D MA. destruct (unique_reset E o3 cv DB DO' CV) as [o4 [R4 RT4]].
    rewrite R3 in R4. injection R4 as <-. exact (proj1 (missing_iff _ _ _ RT4) M3 k e D MA). }
  rewrite verify_gen_eq, (bind_silent _ _ _ _ _ R3), rest_complete by exact M3.
  assert (KK : dkeys (pub o3) = dkeys (pub o1) ++ map fst (missing o1)) by (rewrite P3; exact K2). rewrite KK.
  assert (ST : forall r', checked (normative_keys E) E m (h_ignore h) "" "" (dkeys (pub o1) ++ map fst (missing o1)) o2 = (o3, ev, r') ->
    checked (normative_keys E) E m (h_ignore h) "" "" (dkeys (pub o1) ++ map fst (missing o1)) o3 = (o3, ev, r')).
  { intros r' X. apply (checked_stable _ _ _ _ _ _ _ _ _ _ _ X). }
  destruct r as [[e0 w0]|x].
  2:{ left. rewrite (ST _ CM). reflexivity. }
  destruct CM as [CM|[w' [-> CM]]]; [left; rewrite (ST _ CM); reflexivity|].
  rewrite (ST _ CM). destruct (missing o1) as [|ke l] eqn:ML.
  { left. unfold miss_text. rewrite ML. reflexivity. }
  right. exists (map fst (ke :: l)), ev, e0, w'. split; [discriminate|]. split; [|split; [|reflexivity]].
  - intro k. unfold contained. rewrite KK, in_app_iff, RP. split.
    + intro I. split; [|right; exact I]. apply in_map_iff in I. destruct I as [[j e] [<- I]]. apply (MI j e I).
    + intros [N [I|I]]; [contradiction|exact I].
  - assert (AT : section msg_added (miss_text o1) = added_text (map fst (ke :: l))).
    { unfold miss_text. rewrite ML. unfold section, added_text. destruct (String.eqb_spec (sconcat (fun kv : string * entry => bullet (fst kv)) (ke :: l)) "") as [Q|_].
      - cbn [sconcat] in Q. apply sapp_eq_nil in Q. destruct Q as [Q _]. discriminate Q.
      - unfold msg_added. rewrite sapp_assoc. do 2 f_equal. rewrite map_map. generalize (ke :: l). intro L. clear.
        induction L as [|x L IH]; [reflexivity|]. cbn [sconcat map String.concat]. unfold bullet at 1. rewrite IH.
        destruct (map _ L); [cbn [String.concat]; apply sapp_nil_r|reflexivity]. }
    rewrite AT. reflexivity.
Qed.
