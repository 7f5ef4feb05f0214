(** Lemmas: what the calls of the API use of the directory of the conventions. *)
From Verif Require Import Base PyStr PyNum NdArray Sofa Verify Upgrade Utils Io SpecAttr SpecInit SpecVerify SpecSwap
  BaseFacts StrFacts AttrFacts OpFacts InitFacts CoreFacts DimFacts IssueFacts OptionFacts DictFacts IoFacts.
Open Scope string_scope.
Open Scope list_scope.

Definition CN := "GLOBAL_SOFAConventions".

Section Swap.
Variable er : exn -> exn -> Prop.
Hypothesis er_refl : forall e, er e e.
Variable E : env.
Variable d : list (string * convention).
Variable P : string -> Prop.

Definition rrel {A} (r r' : res A) : Prop :=
  match r, r' with Ok a, Ok b => a = b | Err e, Err f => er e f | _, _ => False end.
Definition nrel {A} (x y : list event * res A) : Prop := fst x = fst y /\ rrel (snd x) (snd y).
Definition crel {A} (x y : sofa * list event * res A) : Prop :=
  m_obj x = m_obj y /\ m_out x = m_out y /\ rrel (m_res x) (m_res y).
Definition named (o : sofa) : Prop := forall b c, In (CN, VStr b c) (pub o) -> P c.
Lemma named_get o b c : named o -> dget CN (pub o) = Some (VStr b c) -> P c.
Proof. intros N D. apply (N b). apply dget_In. exact D. Qed.

Lemma rrel_refl {A} (r : res A) : rrel r r. Proof. destruct r; [reflexivity|apply er_refl]. Qed.
Lemma nrel_refl {A} (x : list event * res A) : nrel x x. Proof. split; [reflexivity|apply rrel_refl]. Qed.
Lemma crel_refl {A} (x : sofa * list event * res A) : crel x x. Proof. split; [reflexivity|split; [reflexivity|apply rrel_refl]]. Qed.

Lemma rrel_bind {A B} (r r' : res A) (f f' : A -> res B) : rrel r r' ->
  (forall a, r = Ok a -> rrel (f a) (f' a)) -> rrel (rbind r f) (rbind r' f').
Proof. intros H K. destruct r, r'; cbn in *; try contradiction; [subst; apply K; reflexivity|exact H]. Qed.

Lemma crel_bind {A B} (m m' : M A) (f f' : A -> M B) o : crel (m o) (m' o) ->
  (forall a o1 ev, m o = (o1, ev, Ok a) -> crel (f a o1) (f' a o1)) -> crel (bind m f o) (bind m' f' o).
Proof.
  intros [H1 [H2 H3]] K. unfold bind. destruct (m o) as [[o1 e1] r1]. destruct (m' o) as [[o2 e2] r2].
  unfold m_obj, m_out, m_res in *. cbn [fst snd] in *. subst o2 e2.
  destruct r1 as [a|e], r2 as [b|e']; cbn in H3; try contradiction.
  - subst b. destruct (K a o1 e1 eq_refl) as [K1 [K2 K3]]. destruct (f a o1) as [[o3 e3] r3]. destruct (f' a o1) as [[o4 e4] r4].
    unfold m_obj, m_out, m_res in *. cbn [fst snd] in *. subst. split; [reflexivity|split; [reflexivity|exact K3]].
  - split; [reflexivity|split; [reflexivity|exact H3]].
Qed.
Lemma crel_lift {A} (r r' : res A) o : rrel r r' -> crel (lift r o) (lift r' o).
Proof. intro H. split; [reflexivity|split; [reflexivity|exact H]]. Qed.

Lemma reset_pub o o1 ev : reset_convention E o = (o1, ev, Ok tt) ->
  pub o1 = pub o /\ exists b c, dget CN (pub o) = Some (VStr b c).
Proof.
  intro H. destruct (reset_convention_cases E o) as [[e R]|[c [b [v [cv [D [_ [_ [_ R]]]]]]]]]; rewrite R in H; [discriminate H|].
  split; [|exists b, c; exact D]. destruct (custom o); injection H as <- _; reflexivity.
Qed.

Hypothesis HV : forall c v, P c -> rrel (verify_convention_and_version E v c) (verify_convention_and_version (with_db E d) v c).
Hypothesis HL : forall c v, P c -> rrel (load_convention E c v) (load_convention (with_db E d) c v).

Lemma reset_swap o : named o -> crel (reset_convention E o) (reset_convention (with_db E d) o).
Proof.
  intro N. unfold reset_convention. fold CN.
  unfold getattr at 1 3. destruct (dget CN (pub o)) as [v|] eqn:D; [|apply crel_refl].
  destruct (getattr o "GLOBAL_SOFAConventionsVersion") as [w|e]; [|apply crel_refl].
  destruct v as [b c|x|a|l]; cbn [as_str]; try apply crel_refl.
  change (py_str (with_db E d) w) with (py_str E w).
  assert (R := rrel_bind (verify_convention_and_version E (py_str E w) c) (verify_convention_and_version (with_db E d) (py_str E w) c)
    (fun _ => load_convention E c (py_str E w)) (fun _ => load_convention (with_db E d) c (py_str E w)) (HV c _ (named_get o b c N D)) (fun _ _ => HL c _ (named_get o b c N D))).
  destruct (rbind (verify_convention_and_version E _ _) _) as [cv|e], (rbind (verify_convention_and_version (with_db E d) _ _) _) as [cv'|e'];
    cbn in R; try contradiction; [subst cv'; apply crel_refl|].
  split; [reflexivity|split; [reflexivity|exact R]].
Qed.

(** ** verify *)
Lemma verify_swap norm norm' h m o :
  (forall c v, (forall b n, c = VStr b n -> P n) -> nrel (norm c v) (norm' c v)) ->
  named o -> crel (verify_gen norm E h m o) (verify_gen norm' (with_db E d) h m o).
Proof.
  intros HN N. unfold verify_gen. apply crel_bind; [apply reset_swap; exact N|]. intros [] o1 e1 R1.
  destruct (reset_pub o o1 e1 R1) as [P1 [b [c D]]].
  rewrite !bind_get. cbv zeta. apply crel_bind; [apply crel_refl|]. intros [] o2 e2 R2.
  assert (D2 : dget CN (pub o2) = Some (VStr b c)).
  { unfold when in R2. destruct (negb (h_raise h)); [|injection R2 as <- _; rewrite P1; exact D].
    destruct (add_defaults_pub (missing o1) o1 CN) as [Q|[e [w [I _]]]].
    - rewrite R2 in Q. unfold m_obj in Q. cbn [fst] in Q. rewrite Q, P1. exact D.
    - unfold missing in I. apply filter_In in I. destruct I as [_ I]. cbn [fst] in I. apply andb_true_iff in I. destruct I as [_ I].
      exfalso. apply negb_true_iff in I. apply smem_false in I. apply I. rewrite P1. apply dget_Some_In. eauto. }
  rewrite !bind_get. apply crel_bind; [apply crel_refl|]. intros terr o3 e3 R3. unfold lift in R3. injection R3 as <- _ _.
  destruct (negb _ && negb _); [apply crel_refl|]. rewrite !bind_get.
  apply crel_bind; [apply crel_refl|]. intros nerr o4 e4 R4. unfold lift in R4. injection R4 as <- _ _.
  apply crel_bind.
  2: { intros cerr o5 e5 _. apply crel_refl. }
  destruct (custom o2) as [cu|]; [|apply crel_refl].
  apply crel_bind; [apply crel_refl|]. intros cc o5 e5 R5. unfold lift in R5. injection R5 as <- _ R5.
  apply crel_bind; [apply crel_refl|]. intros vv o6 e6 R6. unfold lift in R6. injection R6 as <- _ R6.
  assert (Q : nrel (norm cc vv) (norm' cc vv)).
  { apply HN. intros b' n ->. unfold getattr in R5. fold CN in R5. rewrite D2 in R5. injection R5 as _ <-.
    apply (named_get o b c N). exact D. }
  destruct (norm cc vv) as [ev r], (norm' cc vv) as [ev' r']. destruct Q as [Q1 Q2]. cbn [fst snd] in Q1, Q2. subst ev'.
  apply crel_bind; [apply crel_refl|]. intros [] o7 e7 _. apply crel_bind; [apply crel_lift; exact Q2|]. intros nk o8 e8 _. apply crel_refl.
Qed.

Lemma verify0_swap h m o : named o -> crel (verify0 E h m o) (verify0 (with_db E d) h m o).
Proof. intro N. unfold verify0. apply verify_swap; [|exact N]. intros. apply nrel_refl. Qed.

(** ** creation *)
Hypothesis DB : db_ok E.

Lemma init_swap c m version vo : P c -> nrel (sofa_init E c m version vo) (sofa_init (with_db E d) c m version vo).
Proof.
  intro PC. assert (L := HL c version PC).
  destruct (load_convention E c version) as [cv|e] eqn:L1.
  2: { unfold sofa_init. rewrite L1. destruct (load_convention (with_db E d) c version); cbn in L; [contradiction|].
       split; [reflexivity|exact L]. }
  destruct (load_convention (with_db E d) c version) as [cv'|] eqn:L2; cbn in L; [subst cv'|contradiction].
  destruct (load_version E c version cv DB L1) as [b [v [D [FS [SO VV]]]]].
  assert (I1 := fun vo => init_eq E c cv m version b v vo L1 D FS).
  rewrite I1, (init_eq (with_db E d) c cv m version b v vo L2 D FS).
  change (started (with_db E d) cv m) with (started E cv m).
  destruct (started E cv m) as [[o ev] [[]|e]] eqn:ST; [|apply nrel_refl].
  destruct (wants vo v && negb m); [|apply nrel_refl].
  assert (N : named o).
  { assert (I0 := I1 VNo). cbn [wants andb] in I0.
    destruct (armed_init E c m version VNo _ _ DB I0) as [v0 [A _]]. destruct (ar_name _ _ _ _ _ A) as [b1 A1].
    destruct (init_dicts E c m version VNo _ _ I0) as [ND _]. cbn [with_prot pub] in ND, A1.
    intros b2 c2 Q. apply In_dget in Q; [|exact ND]. unfold CN in Q. rewrite A1 in Q. injection Q as _ <-. exact PC. }
  destruct (verify0_swap HRaise VRead o N) as [Q1 [Q2 Q3]].
  destruct (verify0 E HRaise VRead o) as [[o1 e1] r1], (verify0 (with_db E d) HRaise VRead o) as [[o2 e2] r2].
  unfold m_obj, m_out, m_res in *. cbn [fst snd] in *. subst o2 e2.
  destruct r1, r2; cbn in Q3; try contradiction; split; cbn [fst snd]; try reflexivity. exact Q3.
Qed.

Lemma normative_swap c v : (forall b n, c = VStr b n -> P n) -> nrel (normative_keys E c v) (normative_keys (with_db E d) c v).
Proof.
  intro PC. unfold normative_keys. destruct c as [b n| | |]; try apply nrel_refl. destruct v as [b' v| | |]; try apply nrel_refl.
  assert (I := init_swap n false v VAuto (PC b n eq_refl)).
  destruct (sofa_init E n false v VAuto) as [e1 r1], (sofa_init (with_db E d) n false v VAuto) as [e2 r2].
  destruct I as [I1 I2]. cbn [fst snd] in *. subst e2. destruct r1, r2; cbn in I2; try contradiction; split; cbn [fst snd]; try reflexivity.
  - subst. reflexivity.
  - exact I2.
Qed.

Lemma verify_call h m o : named o -> crel (verify E h m o) (verify (with_db E d) h m o).
Proof. intro N. unfold verify. apply (verify_swap (normative_keys E) (normative_keys (with_db E d))); [exact normative_swap|exact N]. Qed.

Lemma dimensions_call o : named o -> crel (update_dimensions E o) (update_dimensions (with_db E d) o).
Proof. intro N. unfold update_dimensions. apply crel_bind; [apply verify_call; exact N|]. intros. apply crel_refl. Qed.
Lemma get_dimension_call x o : named o -> crel (get_dimension E x o) (get_dimension (with_db E d) x o).
Proof. intro N. unfold get_dimension. apply crel_bind; [apply dimensions_call; exact N|]. intros. apply crel_refl. Qed.
Lemma list_dimensions_call o : named o -> crel (list_dimensions E o) (list_dimensions (with_db E d) o).
Proof. intro N. unfold list_dimensions. apply crel_bind; [apply dimensions_call; exact N|]. intros. apply crel_refl. Qed.
Lemma inspect_call h o : named o -> crel (inspect E h o) (inspect (with_db E d) h o).
Proof. intro N. unfold inspect. apply crel_bind; [apply verify_call; exact N|]. intros. apply crel_refl. Qed.
Lemma info_call w o : crel (info E w o) (info (with_db E d) w o).
Proof. apply crel_refl. Qed.
Lemma add_missing_call a b c o : named o -> crel (add_missing E a b c o) (add_missing (with_db E d) a b c o).
Proof. intro N. unfold add_missing. apply crel_bind; [apply reset_swap; exact N|]. intros. apply crel_refl. Qed.

(** ** upgrade *)
Definition tame {A} (m : M A) : Prop := forall o, named o -> named (m_obj (m o)).
Lemma tame_bind {A B} (m : M A) (f : A -> M B) : tame m -> (forall a, tame (f a)) -> tame (bind m f).
Proof. intros H K o N. rewrite m_obj_bind. specialize (H o N). destruct (m o) as [[o1 e1] [a|e]]; [apply K; exact H|exact H]. Qed.
Lemma tame_same {A} (m : M A) : (forall o, pub (m_obj (m o)) = pub o) -> tame m.
Proof. intros H o N b c D. rewrite H in D. exact (N b c D). Qed.
Lemma tame_mfor {A} (l : list A) f : (forall x, In x l -> tame (f x)) -> tame (mfor l f).
Proof.
  induction l as [|x l IH]; intro H; cbn [mfor]; [apply tame_same; reflexivity|].
  apply tame_bind; [apply H; left; reflexivity|intros _; apply IH; intros; apply H; right; assumption].
Qed.
Lemma tame_mfold {A B} (f : A -> B -> M B) l : (forall x b, In x l -> tame (f x b)) -> forall b, tame (mfold f l b).
Proof.
  induction l as [|x l IH]; intros H b; cbn [mfold]; [apply tame_same; reflexivity|].
  apply tame_bind; [apply H; left; reflexivity|intros b'; apply IH; intros; apply H; right; assumption].
Qed.
Lemma tame_set n v : (n = CN -> forall b c, normalize v = Ok (VStr b c) -> P c) -> tame (set_attr n v).
Proof.
  intros H o N b c. destruct (set_attr_cases n v o) as [[e R]|[[b' [_ [_ R]]]|[w [W [_ [R _]]]]]]; rewrite R; unfold m_obj; cbn [fst with_prot with_pub pub];
    try apply N. intro I. apply In_dset in I. destruct I as [I|I]; [|exact (N b c I)]. injection I as <- <-. apply (H eq_refl b). exact W.
Qed.
Lemma tame_del n : tame (del_attr n).
Proof.
  intros o N b c. destruct (del_attr_cases n o) as [[e R]|[_ [_ [_ R]]]]; rewrite R; unfold m_obj; cbn [fst with_custom with_pub pub]; [apply N|].
  intro I. apply (N b c). revert I. generalize (pub o) as l. induction l as [|[k w] l IH]; cbn; [tauto|].
  destruct (String.eqb n k); cbn; [tauto|]. intros [I|I]; [left; exact I|right; apply IH; exact I].
Qed.
Lemma tame_when b (m : M unit) : tame m -> tame (when b m).
Proof. intro H. destruct b; [exact H|apply tame_same; reflexivity]. Qed.

Lemma crel_tbind {A B} (m m' : M A) (f f' : A -> M B) o : named o -> tame m -> crel (m o) (m' o) ->
  (forall a o1, named o1 -> crel (f a o1) (f' a o1)) -> crel (bind m f o) (bind m' f' o).
Proof. intros N T H K. apply crel_bind; [exact H|]. intros a o1 ev R. apply K. specialize (T o N). rewrite R in T. exact T. Qed.

Lemma tame_reset : tame (reset_convention E).
Proof.
  intros o N. destruct (reset_convention_cases E o) as [[e R]|[c [b [v [cv [D [_ [_ [_ R]]]]]]]]]; rewrite R; [exact N|].
  destruct (custom o); exact N.
Qed.
Lemma tame_add_missing a b c : tame (add_missing E a b c).
Proof.
  intros o N. unfold add_missing. rewrite m_obj_bind. assert (R := tame_reset o N). assert (RP := reset_pub o).
  destruct (reset_convention E o) as [[o1 e1] [[]|e]]; [|exact R]. destruct (RP o1 e1 eq_refl) as [P1 [b0 [c0 D]]]. clear RP.
  change (m_obj (o1, e1, Ok tt)) with o1 in R. rewrite bind_get. cbv zeta.
  set (todo := filter _ (conv o1)).
  match goal with |- named (m_obj (?m _)) => assert (T : tame m) end; [|exact (T o1 R)].
  apply tame_bind; [apply tame_same; reflexivity|intros _].
  apply tame_bind; [|intros _; apply tame_bind; [apply tame_same; reflexivity|intros _; apply tame_when; destruct (has_char _ _); apply tame_same; reflexivity]].
  apply tame_mfor. intros x I. apply tame_set. intro X. exfalso. subst todo. apply filter_In in I. destruct I as [_ I].
  apply andb_true_iff in I. destruct I as [I _]. apply negb_true_iff in I. rewrite X in I. apply smem_false in I. apply I.
  rewrite P1. apply dget_Some_In. eauto.
Qed.

(** the name that an upgrade sets *)
Lemma upgrade_call target vo o : named o ->
  (forall t a b, target = Some t -> split "_" t = [a; b] -> P a) ->
  ((forall n, P n) \/ moves_no_name E) ->
  crel (upgrade_convention E target vo o) (upgrade_convention (with_db E d) target vo o).
Proof.
  intros N PT MV. unfold upgrade_convention. apply crel_tbind; [exact N|apply tame_reset|apply reset_swap; exact N|]. intros _ o1 N1.
  rewrite !bind_get. apply crel_tbind; [exact N1|apply tame_same; reflexivity|apply crel_refl|]. intros cc o2 N2.
  apply crel_tbind; [exact N2|apply tame_same; reflexivity|apply crel_refl|]. intros vv o3 N3.
  apply crel_tbind; [exact N3|apply tame_same; reflexivity|apply crel_refl|]. intros sv o4 N4. cbv zeta.
  change (py_str (with_db E d)) with (py_str E). change (decide (with_db E d)) with (decide E).
  destruct (decide E (py_str E cc) vv target) as [| |tg|id|]; [apply crel_refl|apply crel_refl|apply crel_refl| |apply crel_refl].
  destruct target as [t|]; [|apply crel_refl].
  apply crel_bind; [|intros; apply crel_refl].
  unfold apply_upgrade. change (upgrades (with_db E d)) with (upgrades E).
  apply crel_bind; [apply crel_refl|]. intros u o5 e5 R5. unfold lift in R5. injection R5 as <- _ U.
  apply crel_bind; [apply crel_refl|]. intros spec o6 e6 R6. unfold lift in R6. injection R6 as <- _ SP.
  apply crel_bind; [apply crel_refl|]. intros ct o7 e7 R7. unfold lift in R7. injection R7 as <- _ CT.
  assert (PA : P (fst ct)).
  { destruct (split "_" t) as [|a [|b [|]]] eqn:SS; try discriminate CT. injection CT as <-. exact (PT t a b eq_refl SS). }
  apply crel_bind; [apply crel_lift; apply HL; exact PA|]. intros cv o8 e8 R8. unfold lift in R8. injection R8 as <- _ LC.
  destruct (load_own_version E _ _ _ DB LC) as [w [_ [_ [_ [SO _]]]]].
  apply crel_tbind; [exact N4|apply tame_same; reflexivity|apply crel_refl|]. intros _ o9 N9.
  apply crel_tbind; [exact N9|apply tame_same; reflexivity|apply crel_refl|]. intros gv o10 N10.
  apply crel_tbind; [exact N10|apply tame_same; reflexivity|apply crel_refl|]. intros _ o11 N11.
  apply crel_tbind; [exact N11|apply tame_same; reflexivity|apply crel_refl|]. intros _ o12 N12.
  apply crel_tbind; [exact N12| |apply crel_refl|].
  { apply tame_mfor. intros k _ o' N'. unfold bind, lift, dgetE. destruct (dget k cv) as [e|] eqn:GE; [|exact N'].
    assert (T : named (m_obj (set_attr k (e_default e) o'))).
    { apply tame_set; [|exact N']. intros -> b c Q. destruct SO as [e' [b' [D1 [_ [_ D2]]]]]. unfold CN in GE. rewrite D1 in GE. injection GE as <-.
      rewrite D2 in Q. cbn in Q. injection Q as _ <-. exact PA. }
    destruct (set_attr k (e_default e) o') as [[o2' e2'] r2']. exact T. }
  intros _ o13 N13. apply crel_tbind; [exact N13| |apply crel_refl|].
  { apply tame_mfor. intros [s mv] I. unfold move_entry. cbn [fst snd].
    apply tame_bind; [apply tame_same; reflexivity|]. intro oo.
    apply tame_bind; [apply tame_same; reflexivity|]. intro data.
    apply tame_bind; [apply tame_del|]. intros _.
    apply tame_bind; [destruct (mv_axis mv); apply tame_same; reflexivity|]. intro data'.
    apply tame_bind; [|intros _; apply tame_same; reflexivity].
    apply tame_set. intros X b c _. destruct MV as [MV|MV]; [apply MV|exfalso].
    unfold dgetE in U, SP. destruct (dget (py_str E cc) (upgrades E)) as [u'|] eqn:DU; [|discriminate U]. injection U as <-.
    destruct (dget id (u_specs u')) as [sp'|] eqn:DS; [|discriminate SP]. injection SP as <-.
    exact (MV _ _ _ _ _ _ DU DS I X). }
  intros _ o14 N14. apply crel_tbind; [exact N14|apply tame_when; apply tame_same; reflexivity|apply crel_refl|].
  intros _ o15 N15. apply crel_tbind; [exact N15| |apply crel_refl|].
  { apply tame_mfor. intros x _. unfold remove_entry. apply tame_bind; [apply tame_del|intros _; apply tame_same; reflexivity]. }
  intros _ o16 N16. apply crel_tbind; [exact N16|apply tame_when; apply tame_same; reflexivity|apply crel_refl|].
  intros _ o17 N17. apply crel_tbind; [exact N17|apply tame_add_missing|apply add_missing_call; exact N17|].
  intros _ o18 N18. apply crel_tbind; [exact N18|apply tame_same; reflexivity|apply crel_refl|].
  intros _ o19 N19. apply crel_tbind; [exact N19|destruct (u_message spec); apply tame_same; reflexivity|apply crel_refl|].
  intros _ o20 N20. rewrite !bind_get.
  apply crel_tbind; [exact N20| |apply crel_refl|].
  { destruct vo; [apply tame_bind; [|intro]|..]; apply tame_same; reflexivity. }
  intros [|] o21 N21; [|apply crel_refl]. apply crel_bind; [apply verify_call; exact N21|intros; apply crel_refl].
Qed.

(** ** operations *)
Lemma op_call p o : named o -> crel (run_op E p o) (run_op (with_db E d) p o).
Proof.
  intro N. destruct p; cbn [run_op]; [apply crel_refl|apply crel_refl|apply crel_refl|apply crel_refl| | | | | |apply crel_refl|].
  - apply add_missing_call; exact N.
  - apply crel_bind; [apply verify_call; exact N|intros; apply crel_refl].
  - apply crel_bind; [apply get_dimension_call; exact N|intros; apply crel_refl].
  - apply list_dimensions_call; exact N.
  - apply inspect_call; exact N.
  - apply crel_bind; [|intros; apply crel_refl]. unfold upgrade_convention.
    apply crel_bind; [apply reset_swap; exact N|intros; apply crel_refl].
Qed.
Lemma run_call ops : forall o, (forall k, named (run E o (firstn k ops))) -> run (with_db E d) o ops = run E o ops.
Proof.
  induction ops as [|p ops IH]; intros o N; [reflexivity|]. cbn [run fold_left]. unfold run in *. cbn [fold_left].
  assert (ST : step (with_db E d) o p = step E o p).
  { unfold step. destruct (op_call p o (N 0)) as [H _]. symmetry. exact H. }
  rewrite ST. apply IH. intro k. exact (N (S k)).
Qed.

(** ** files *)
Lemma crel_emits ev o : crel (mfor ev emit o) (mfor ev emit o). Proof. apply crel_refl. Qed.
Lemma write_call name o s : named o ->
  fst (write_sofa E name o s) = fst (write_sofa (with_db E d) name o s)
  /\ crel (snd (write_sofa E name o s)) (snd (write_sofa (with_db E d) name o s)).
Proof.
  intro N.
  assert (C : crel (prepare_write E name o) (prepare_write (with_db E d) name o)).
  { unfold prepare_write. apply crel_tbind; [exact N|apply tame_same; reflexivity|apply crel_refl|]. intros p o1 N1.
    assert (W : crel (warn_version E o1) (warn_version (with_db E d) o1)).
    { unfold warn_version. rewrite !bind_get. apply crel_bind; [apply crel_refl|]. intros c o2 e2 R2. unfold lift in R2. injection R2 as <- _ G.
      destruct c as [b c| | |]; try apply crel_refl. destruct (String.eqb c "invalid-value"); [apply crel_refl|].
      assert (PC : P c). { unfold getattr in G. fold CN in G. destruct (dget CN (pub o1)) eqn:D; [|destruct (smem CN class_attrs); discriminate G].
        injection G as ->. exact (named_get o1 b c N1 D). }
      assert (I := init_swap c false "latest" VAuto PC).
      destruct (sofa_init E c false "latest" VAuto) as [ev r], (sofa_init (with_db E d) c false "latest" VAuto) as [ev' r'].
      destruct I as [I1 I2]. cbn [fst snd] in I1, I2. subst ev'.
      apply crel_bind; [apply crel_refl|]. intros _ o3 e3 _. apply crel_bind; [apply crel_lift; exact I2|]. intros. apply crel_refl. }
    apply crel_tbind; [exact N1| |exact W|].
    2: { intros _ o2 N2. apply crel_bind; [apply verify_call; exact N2|intros; apply crel_refl]. }
    apply tame_same. intro o2. rewrite (warn_version_keeps E o2). reflexivity. }
  destruct C as [C1 [C2 C3]]. unfold write_sofa.
  destruct (prepare_write E name o) as [[o1 e1] r1], (prepare_write (with_db E d) name o) as [[o2 e2] r2].
  unfold m_obj, m_out, m_res in C1, C2, C3. cbn [fst snd] in C1, C2, C3. subst o2 e2.
  destruct r1 as [p|e], r2 as [p2|e']; cbn in C3; try contradiction.
  - subst p2. destruct (fs_writable s p); [|split; [reflexivity|apply crel_refl]].
    change (write_content (with_db E d)) with (write_content E). destruct (write_content E o1 empty_file) as [f r].
    split; [reflexivity|apply crel_refl].
  - split; [reflexivity|]. split; [reflexivity|split; [reflexivity|exact C3]].
Qed.

(** where a file holds the name of the convention *)
Definition calm_file (f : ncfile) : Prop :=
  (forall w, In ("SOFAConventions", w) (nf_attrs f) -> exists b c, w = VStr b c /\ P c)
  /\ (forall var v, In (var, v) (nf_vars f) -> sofa_name var <> CN
       /\ forall b w, In (b, w) (nv_attrs v) -> sofa_name var +++ "_" +++ b <> CN).

Lemma tame_read_entry name v dd t n : (name = CN -> forall b c, normalize v = Ok (VStr b c) -> P c) -> tame (read_entry name v dd t n).
Proof.
  intro H. unfold read_entry. apply tame_bind; [apply tame_same; reflexivity|]. intro o.
  destruct (hasattr o name).
  - apply tame_bind; [apply tame_set; exact H|intros _; apply tame_same; reflexivity].
  - apply tame_bind; [|intros _; apply tame_same; reflexivity]. unfold add_custom_api_entry.
    apply tame_bind; [apply tame_same; reflexivity|intros _].
    apply tame_bind; [apply tame_same; intro o'; unfold modify, m_obj; cbn [fst]; destruct (dmem name (conv o')); reflexivity|intros _].
    apply tame_bind; [apply tame_set; exact H|intros _; apply tame_same; reflexivity].
Qed.
Lemma read_attr_same ms n v w : read_attr ms n v = Ok w -> w = v.
Proof. unfold read_attr. destruct (smem n ms); [discriminate|]. intro H. injection H as <-. reflexivity. Qed.
Lemma tame_lift_bind {A B} (r : res A) (f : A -> M B) : (forall a, r = Ok a -> tame (f a)) -> tame (bind (lift r) f).
Proof. intros H. destruct r as [a|e]; intros o N; [rewrite bind_lift; apply (H a eq_refl); exact N|exact N]. Qed.

Lemma tame_read f : calm_file f -> tame (read_content f).
Proof.
  intros [A V]. unfold read_content. apply tame_bind; [apply tame_same; reflexivity|intros _].
  apply tame_bind.
  { apply tame_mfold. intros [x w] n I. unfold read_gattr. cbn [fst snd]. apply tame_lift_bind. intros w' RA. apply read_attr_same in RA. subst w'.
    apply tame_read_entry. intros Q b c NV. change CN with ("GLOBAL_" +++ "SOFAConventions") in Q. cbn in Q. injection Q as Q. subst x.
    destruct (A w I) as [b' [c' [-> PC]]]. cbn in NV. injection NV as _ <-. exact PC. }
  intro n. apply tame_bind.
  { apply tame_mfold. intros [var v] n' I. destruct (V var v I) as [V1 V2]. unfold read_var.
    destruct (existsb _ (dkeys (nv_attrs v))); [apply tame_same; reflexivity|].
    destruct (format_from_netcdf var v) as [ev r]. apply tame_bind; [apply tame_mfor; intros; apply tame_same; reflexivity|intros _].
    apply tame_bind; [apply tame_same; reflexivity|intro val].
    apply tame_bind; [apply tame_read_entry; intro Q; destruct (V1 Q)|]. intro n2.
    apply tame_mfold. intros [b w] n3 Ib. cbn [fst snd]. apply filter_In in Ib. destruct Ib as [Ib _].
    apply tame_bind; [apply tame_same; reflexivity|intro w']. apply tame_read_entry. intro Q. destruct (V2 b w Ib Q). }
  intro n2. apply tame_bind; [apply tame_same; reflexivity|intro o].
  apply tame_bind; [apply tame_mfor; intros; apply tame_del|intros _].
  apply tame_bind; [apply tame_same; reflexivity|intros _; apply tame_same; reflexivity].
Qed.

Lemma read_call s name vo verbose : ((forall n, P n) \/ forall f, open_file s name = Ok f -> calm_file f) ->
  nrel (read_sofa E s name vo verbose) (read_sofa (with_db E d) s name vo verbose).
Proof.
  intro CF. unfold read_sofa. destruct (open_file s name) as [f|e]; [|apply nrel_refl].
  assert (TR : tame (read_content f)).
  { destruct CF as [CF|CF]; [intros o N b c _; apply CF|apply tame_read; exact (CF f eq_refl)]. }
  cbn [rbind]. unfold file_text at 1 3. destruct (dget "SOFAConventions" (nf_attrs f)) as [w|] eqn:DC; [|apply nrel_refl].
  destruct w as [b c| | |]; try apply nrel_refl. cbn [rbind].
  assert (PC : P c). { destruct CF as [CF|CF]; [apply CF|]. destruct (CF f eq_refl) as [A _]. apply dget_In in DC. destruct (A _ DC) as [b' [c' [Q PC]]]. injection Q as _ ->. exact PC. }
  destruct (file_text f "SOFAConventionsVersion") as [v|e]; [|apply nrel_refl]. cbn [rbind].
  assert (HVc := HV c v PC).
  destruct (verify_convention_and_version E v c) as [[]|e], (verify_convention_and_version (with_db E d) v c) as [[]|e']; cbn in HVc; try contradiction;
    cbn [rbind]; [|split; [reflexivity|exact HVc]].
  assert (I := init_swap c false v vo PC). assert (I0 := fun ev o => armed_init E c false v vo ev o DB). assert (I9 := fun ev o => init_dicts E c false v vo ev o).
  destruct (sofa_init E c false v vo) as [e1 r1], (sofa_init (with_db E d) c false v vo) as [e2 r2].
  destruct I as [I1 I2]. cbn [fst snd] in I1, I2. subst e2. destruct r1 as [o|e], r2 as [o2|e']; cbn in I2; try contradiction; [|split; [reflexivity|exact I2]].
  subst o2. destruct (I0 e1 o eq_refl) as [w [AR _]]. destruct (I9 e1 o eq_refl) as [ND _].
  assert (N : named o).
  { destruct (ar_name _ _ _ _ _ AR) as [b1 A1]. intros b2 c2 Q. apply In_dget in Q; [|exact ND]. unfold CN in Q. rewrite A1 in Q. injection Q as _ <-. exact PC. }
  match goal with |- nrel (prepend _ (finished (?m o))) (prepend _ (finished (?m' o))) => assert (C : crel (m o) (m' o)) end.
  { apply crel_tbind; [exact N|exact TR|apply crel_refl|]. intros cu o1 N1.
    apply crel_tbind; [exact N1|apply tame_when; apply tame_same; reflexivity|apply crel_refl|]. intros _ o2 N2.
    apply crel_tbind; [exact N2|destruct vo; apply tame_same; reflexivity|apply crel_refl|]. intros [|] o3 N3; [|apply crel_refl].
    destruct (verify_call HRaise VRead o3 N3) as [Q1 [Q2 Q3]]. unfold verify_read.
    destruct (verify E HRaise VRead o3) as [[o4 e4] r4], (verify (with_db E d) HRaise VRead o3) as [[o5 e5] r5].
    unfold m_obj, m_out, m_res in Q1, Q2, Q3. cbn [fst snd] in Q1, Q2, Q3. subst o5 e5. destruct r4, r5; cbn in Q3; try contradiction; apply crel_refl. }
  match goal with |- nrel (prepend _ (finished ?x)) (prepend _ (finished ?y)) => destruct x as [[oa ea] ra]; destruct y as [[ob eb] rb] end.
  destruct C as [Q1 [Q2 Q3]]. unfold m_obj, m_out, m_res in Q1, Q2, Q3. cbn [fst snd] in Q1, Q2, Q3. subst ob eb.
  destruct ra, rb; cbn in Q3; try contradiction; split; cbn; try reflexivity. exact Q3.
Qed.
End Swap.
