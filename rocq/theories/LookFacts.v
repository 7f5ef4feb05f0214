(** Lemmas about objects whose declared entries are those of the convention and
    of the custom data: looking at them changes nothing. *)
From Verif Require Import Base PyStr PyNum NdArray Sofa Verify Upgrade Utils Io
  SpecAttr SpecInit SpecVerify
  BaseFacts StrFacts AttrFacts OpFacts InitFacts ProtFacts MissingFacts CoreFacts DimFacts BlindFacts.
Open Scope string_scope.
Open Scope list_scope.

(** the object declares the entries of the convention [cv] and the custom ones,
    and has all mandatory data *)
Record settled (E : env) (cv : convention) (o : sofa) : Prop := {
  se_armed : exists c v, armed_with E o c v cv /\ v <> "latest";
  se_conv : conv o = match custom o with None => cv | Some cu => dupdate cv cu end;
  se_own : forall cu, custom o = Some cu -> keep_custom cv cu = cu;
  se_complete : missing o = [];
  se_tidy : tidy o;
  se_prot : prot o = true }.

Lemma twins_armed E o p c v cv : twins o p -> armed_with E o c v cv -> armed_with E p c v cv.
Proof.
  intros [T1 T2 T3 T4 T5] [A1 A2 A3 A4 A5 A6 A7 A8 A9].
  split; rewrite ?T1, ?T2, ?T3, ?T4; assumption.
Qed.
Lemma twins_settled E cv o p : twins o p -> settled E cv o -> settled E cv p.
Proof.
  intros T [[c [v [A N]]] S2 S3 S4 S5 S6]. assert (T' := T). destruct T' as [T1 T2 T3 T4 T5]. split.
  - exists c, v. split; [exact (twins_armed _ _ _ _ _ _ T A)|exact N].
  - rewrite T2, T3. exact S2.
  - rewrite T3. exact S3.
  - rewrite <- S4. unfold missing. rewrite T1, T2. reflexivity.
  - unfold tidy. rewrite T3. exact S5.
  - rewrite T5. exact S6.
Qed.

Lemma settled_reset E cv o : db_ok E -> settled E cv o -> reset_convention E o = (o, [], Ok tt).
Proof.
  intros DB [[c [v [A N]]] S2 S3 S4 S5 S6].
  destruct (reset_armed_ok E o c v cv DB A N) as [o1 R].
  destruct (reset_convention_cases E o) as [[e R']|[c' [b [v' [cv' [H1 [H2 [H3 [H4 R']]]]]]]]]; [congruence|].
  destruct (ar_name _ _ _ _ _ A) as [b1 A1]. destruct (ar_version _ _ _ _ _ A) as [b2 A2].
  rewrite A1 in H1. injection H1 as <- <-. rewrite A2 in H2. injection H2 as <-. cbn [py_str] in H4.
  rewrite (ar_load _ _ _ _ _ A) in H4. injection H4 as <-. rewrite R'. f_equal. f_equal.
  destruct (custom o) as [cu|] eqn:CU.
  - rewrite (S3 cu eq_refl), <- S2. rewrite <- CU. destruct o; reflexivity.
  - rewrite <- S2. destruct o; reflexivity.
Qed.

(** ** Calls that leave the object as it is *)
Definition rests {A} (f : M A) (o : sofa) : Prop := twins o (m_obj (f o)).
Lemma rests_bind {A B} (f : M A) (k : A -> M B) o : rests f o -> (forall a p, twins o p -> rests (k a) p) -> rests (bind f k) o.
Proof.
  intros F K. unfold rests in *. rewrite m_obj_bind. destruct (f o) as [[o1 e1] [a|e]]; unfold m_obj in *; cbn [fst] in *; [|exact F].
  exact (twins_trans _ _ _ F (K a _ F)).
Qed.
Lemma rests_const {A} (x : list event) (r : res A) o : rests (fun o => (o, x, r)) o. Proof. apply twins_refl. Qed.
Lemma rests_ret {A} (a : A) o : rests (ret a) o. Proof. apply twins_refl. Qed.
Lemma rests_raise {A} e o : rests (@raise A e) o. Proof. apply twins_refl. Qed.
Lemma rests_lift {A} (r : res A) o : rests (lift r) o. Proof. apply twins_refl. Qed.
Lemma rests_emit e o : rests (emit e) o. Proof. apply twins_refl. Qed.
Lemma rests_get {A} (k : sofa -> M A) o : rests (k o) o -> rests (bind get k) o.
Proof. intro H. unfold rests in *. rewrite m_obj_bind. exact H. Qed.
Lemma rests_when b m o : rests m o -> rests (when b m) o.
Proof. destruct b; [auto|intros _; apply twins_refl]. Qed.
Lemma rests_mfor {A} (l : list A) f : (forall x o, rests (f x) o) -> forall o, rests (mfor l f) o.
Proof. intro H. induction l as [|x l IH]; intro o; cbn [mfor]; [apply rests_ret|]. apply rests_bind; [apply H|intros; apply IH]. Qed.
Lemma rests_issues w e h o : rests (handle_issues w e h) o.
Proof.
  unfold handle_issues. revert o. repeat first [intro|apply rests_raise|apply rests_ret|apply rests_lift|apply rests_emit|apply rests_when
      |apply rests_bind|match goal with |- rests (match ?x with _ => _ end) _ => destruct x end].
Qed.
Lemma rests_dims o : prot o = true -> rests verify_dims o.
Proof.
  intro P. unfold rests, verify_dims.
  set (o1 := with_prot (with_api (with_dims o (Some [])) (Some [])) true).
  assert (T : twins o o1) by (split; cbn; congruence).
  unfold bind, modify, get, lift. fold o1. destruct (detect o1) as [s r]. destruct r as [u|e]; [|split; cbn; congruence].
  destruct (check_shapes o1 (fixed_sizes s) (dim_keys o1) [] "") as [d r]. split; cbn; congruence.
Qed.

Lemma rests_verify_gen norm E cv h m o : db_ok E -> settled E cv o -> rests (verify_gen norm E h m) o.
Proof.
  intros DB S. unfold verify_gen. apply rests_bind; [unfold rests; rewrite (settled_reset E cv o DB S); apply twins_refl|].
  intros _ p T. assert (SP := twins_settled E cv o p T S). clear S T. apply rests_get. cbv zeta. rewrite (se_complete _ _ _ SP).
  apply rests_bind; [apply rests_when; apply twins_refl|]. intros _ p1 T1. assert (S1 := twins_settled E cv p p1 T1 SP). clear T1.
  apply rests_get. apply rests_bind; [apply rests_lift|]. intros terr p2 T2. assert (S2 := twins_settled E cv p1 p2 T2 S1). clear T2.
  match goal with |- rests (if ?b then _ else _) _ => destruct b end.
  { apply rests_bind; [apply rests_issues|intros; apply rests_ret]. }
  apply rests_get. apply rests_bind; [apply rests_lift|]. intros nerr p3 T3. assert (S3 := twins_settled E cv p2 p3 T3 S2). clear T3.
  apply rests_bind.
  { destruct (custom p2); [|apply rests_ret]. apply rests_bind; [apply rests_lift|intros c ? _]. apply rests_bind; [apply rests_lift|intros v ? _].
    destruct (norm c v) as [ev r]. apply rests_bind; [apply rests_mfor; intros; apply rests_emit|intros _ ? _].
    apply rests_bind; [apply rests_lift|intros; apply rests_ret]. }
  intros cerr p4 T4. assert (P4 := se_prot _ _ _ (twins_settled E cv p3 p4 T4 S3)). clear T4.
  apply rests_bind; [apply rests_dims; exact P4|]. intros serr p5 _. apply rests_get.
  apply rests_bind; [apply rests_lift|intros rerr ? _]. apply rests_bind; [apply rests_lift|intros uerr ? _].
  apply rests_bind; [apply rests_lift|intros dm ? _]. apply rests_bind; [apply rests_lift|intros pm ? _].
  destruct (h_ignore h); [apply rests_ret|]. apply rests_bind; [apply rests_issues|intros; apply rests_ret].
Qed.
Lemma rests_verify E cv h m o : db_ok E -> settled E cv o -> rests (verify E h m) o.
Proof. exact (rests_verify_gen (normative_keys E) E cv h m o). Qed.

Lemma rests_update E cv o : db_ok E -> settled E cv o -> rests (update_dimensions E) o.
Proof.
  intros DB S. unfold update_dimensions. apply rests_bind; [exact (rests_verify E cv _ _ o DB S)|]. intros i p _. apply rests_get.
  destruct i; [destruct (_ || _)|]; [apply rests_raise|apply rests_ret|apply rests_ret].
Qed.

(** calls that only look *)
Definition look (p : op) : Prop :=
  match p with OVerify _ _ | OGetDim _ | OListDims | OInspect _ | OInfo _ | OAskUpgrade => True | _ => False end.

Lemma rests_look E cv p o : db_ok E -> settled E cv o -> look p -> rests (run_op E p) o.
Proof.
  intros DB S L. destruct p; try destruct L; cbn [run_op].
  - apply rests_bind; [exact (rests_verify E cv _ _ o DB S)|intros; apply rests_ret].
  - apply rests_bind; [|intros; apply rests_ret]. unfold get_dimension. apply rests_bind; [exact (rests_update E cv o DB S)|].
    intros _ q _. apply rests_get. destruct (api q) as [a|]; [destruct (dget d a)|]; apply twins_refl.
  - unfold list_dimensions. apply rests_bind; [exact (rests_update E cv o DB S)|]. intros _ q _. apply rests_get.
    apply rests_bind; [apply rests_lift|intros dt ? _]. apply rests_bind; [destruct dt; apply twins_refl|intros dt2 ? _]. cbv zeta.
    apply rests_bind; [apply rests_lift|intros ? ? _]. apply rests_bind; [apply rests_lift|intros ? ? _].
    apply rests_bind; [match goal with |- rests (match ?x with _ => _ end) _ => destruct x end; apply twins_refl|intros ? ? _].
    destruct (api q); apply twins_refl.
  - unfold inspect. apply rests_bind; [exact (rests_verify E cv _ _ o DB S)|]. intros _ q _. apply rests_get.
    apply rests_bind; [apply rests_lift|intros ? ? _]. apply rests_bind; [apply rests_lift|intros ? ? _]. apply rests_emit.
  - unfold info. apply rests_bind; [apply rests_emit|intros _ ? _]. apply rests_get. apply rests_bind; [apply rests_lift|intros ? ? _]. cbv zeta.
    destruct (smem what _); [|destruct (smem what _); [|apply rests_raise]]; (apply rests_bind; [apply rests_lift|intros; apply rests_emit]).
  - apply rests_bind; [|intros; apply rests_ret]. unfold upgrade_convention.
    apply rests_bind; [unfold rests; rewrite (settled_reset E cv o DB S); apply twins_refl|].
    intros _ q _. apply rests_get. apply rests_bind; [apply rests_lift|intros ? ? _]. apply rests_bind; [apply rests_lift|intros ? ? _].
    apply rests_bind; [apply rests_lift|intros ? ? _]. cbv zeta. match goal with |- context [decide ?a ?b ?c ?d] => destruct (decide a b c d) end.
    all: repeat first [apply rests_raise|apply rests_ret|apply rests_lift|apply rests_emit|apply rests_bind; [|intros ? ? _]].
Qed.

(** ** Operations that keep the object settled *)
(** no custom data are deleted *)
Definition keeps_custom (cv : convention) (p : op) : Prop := forall n, p = ODel n -> dmem n cv = true.

Lemma missing_none o : missing o = [] <-> forall k e, In (k, e) (conv o) -> is_mandatory (e_flags e) = true -> In k (dkeys (pub o)).
Proof.
  unfold missing. rewrite <- (rev_involutive (filter _ _)). split.
  - intros H k e I M. assert (F : filter (fun kv : string * entry => is_mandatory (e_flags (snd kv)) && negb (smem (fst kv) (dkeys (pub o)))) (conv o) = []).
    { rewrite rev_involutive in H. exact H. }
    destruct (smem k (dkeys (pub o))) eqn:B; [apply smem_In in B; exact B|]. exfalso.
    assert (X : In (k, e) []) by (rewrite <- F; apply filter_In; split; [exact I|cbn [fst snd]; rewrite M, B; reflexivity]). destruct X.
  - intro H. rewrite rev_involutive. destruct (filter _ _) as [|[k e] l] eqn:F; [reflexivity|]. exfalso.
    assert (X : In (k, e) ((k, e) :: l)) by (left; reflexivity). rewrite <- F in X. apply filter_In in X. destruct X as [I B].
    cbn [fst snd] in B. apply andb_true_iff in B. destruct B as [M B]. specialize (H k e I M). apply smem_In in H. rewrite H in B. discriminate B.
Qed.

Lemma keep_custom_notin cv cu k e : keep_custom cv cu = cu -> In (k, e) cu -> dmem k cv = false.
Proof. intros H I. rewrite <- H in I. apply filter_In in I. destruct I as [_ B]. cbn [fst] in B. destruct (dmem k cv); [discriminate B|reflexivity]. Qed.

Lemma dupdate_has {A} (cu : dict A) : forall cv k, In k (dkeys cv) \/ In k (dkeys cu) -> In k (dkeys (dupdate cv cu)).
Proof.
  unfold dupdate. induction cu as [|[j x] cu IH]; intros cv k H; cbn [fold_left fst snd]; [destruct H as [H|[]]; exact H|].
  apply IH. destruct H as [H|[H|H]]; [left; apply In_dkeys_dset; right; exact H|left; apply In_dkeys_dset; left; symmetry; exact H|right; exact H].
Qed.

Lemma settled_same E cv o o' : settled E cv o -> db_ok E -> conv o' = conv o -> custom o' = custom o -> prot o' = true -> tidy o' ->
  (exists c v, armed_with E o' c v cv /\ v <> "latest") ->
  (forall k e, In (k, e) (conv o) -> is_mandatory (e_flags e) = true -> In k (dkeys (pub o)) -> In k (dkeys (pub o'))) -> settled E cv o'.
Proof.
  intros [S1 S2 S3 S4 S5 S6] DB HC HU P T A K. split; [exact A|rewrite HC, HU; exact S2|rewrite HU; exact S3| |exact T|exact P].
  apply missing_none. rewrite HC. intros k e I M. apply (K k e I M). apply (proj1 (missing_none o) S4 k e I M).
Qed.

Lemma settled_step E cv o p : db_ok E -> db_tidy E -> settled E cv o -> safe_op p -> keeps_custom cv p -> settled E cv (step E o p).
Proof.
  intros DB DT S SP KC. assert (S' := S). destruct S' as [[c [v [A N]]] S2 S3 S4 S5 S6].
  assert (P' := step_kprot E o p DT S5 SP S6). assert (T' := step_tidy E o p DT S5 SP).
  assert (A' : exists c v, armed_with E (step E o p) c v cv /\ v <> "latest").
  { exists c, v. split; [exact (proj1 (armed_step E o p c v cv A S6))|exact N]. }
  assert (ND : NoDup (dkeys (conv o))) by (apply (reset_ok_NoDup E o o [] tt); exact (settled_reset E cv o DB S)).
  assert (G : settles E o (step E o p) -> settled E cv (step E o p)).
  { intros [G|[o1 [R G]]]; [|rewrite (settled_reset E cv o DB S) in R; injection R as <-].
    all: destruct G as [G1 G2 G3 G4]; apply (settled_same E cv o _ S DB G2 G3 P' T' A'); intros k e _ _ K;
      apply dget_Some_In in K; destruct K as [x K]; apply dget_Some_In; exists x; exact (G1 k x K). }
  assert (L : look p -> settled E cv (step E o p)).
  { intro L. apply (twins_settled E cv o); [|exact S]. exact (rests_look E cv p o DB S L). }
  assert (AD : forall n x t d, is_private n = false -> step E o p = m_obj (add_entry n x t d o) -> settled E cv (step E o p)).
  { intros n x t d PN Q. destruct (add_entry_cases n x t d o) as [[e [H _]]|[H1 [ev [o' [r [H2 H]]]]]].
    - rewrite H in Q. cbn [m_obj fst] in Q. rewrite Q. exact S.
    - rewrite H in Q. cbn [m_obj fst] in Q. rewrite Q in *. clear Q H.
      rewrite add_custom_obj in H2. cbv zeta in H2. destruct (dmem n (conv o)) eqn:DM.
      + apply (settled_same E cv o o' S DB); try assumption; destruct (set_attr_cases n x (with_prot o false)) as [[e K]|[[b [_ [_ K]]]|[w [_ [_ [K _]]]]]];
          rewrite K in H2; inversion H2; subst; cbn; try reflexivity; intros k e0 _ _ Hk; try exact Hk; apply In_dkeys_dset; right; exact Hk.
      + set (en := Entry None (option_map (smap custom_dim_char) (option_map upper d)) t (VScal EObj) (Some "")) in H2.
        set (cu := match custom o with Some c => c | None => [] end) in H2.
        assert (CO : conv o = dupdate cv cu) by (unfold cu; rewrite S2; destruct (custom o); reflexivity).
        assert (NI : ~ In n (dkeys cv) /\ ~ In n (dkeys cu)).
        { split; intro I; apply (proj2 (Bool.not_true_iff_false _)) in DM; apply DM; apply dmem_In; rewrite CO; apply dupdate_has; auto. }
        assert (KCU : keep_custom cv cu = cu) by (unfold cu; destruct (custom o) as [cc|] eqn:CC; [apply S3; reflexivity|reflexivity]).
        assert (DS : dset n en cu = cu ++ [(n, en)]) by (apply dset_new; apply NI).
        assert (FO : conv o' = dset n en (conv o) /\ custom o' = Some (dset n en cu) /\ (forall k, In k (dkeys (pub o)) -> In k (dkeys (pub o')))).
        { match type of H2 with context [set_attr n x ?z] => set (o2 := z) in H2 end.
          destruct (set_attr_cases n x o2) as [[e K]|[[b [_ [_ K]]]|[w [_ [_ [K _]]]]]];
            rewrite K in H2; inversion H2; subst; cbn; (split; [reflexivity|split; [reflexivity|]]); intros k Hk; try exact Hk.
          apply In_dkeys_dset; right; exact Hk. }
        destruct FO as [F1 [F2 F3]]. split; [exact A'| | | |exact T'|exact P'].
        * rewrite F1, F2, CO, DS. unfold dupdate. rewrite fold_left_app. reflexivity.
        * intros cu' Hcu. rewrite F2 in Hcu. injection Hcu as <-. rewrite DS. unfold keep_custom. rewrite filter_app.
          fold (keep_custom cv cu). rewrite KCU. f_equal. cbn [filter fst]. destruct (dmem n cv) eqn:Q; [|reflexivity].
          exfalso. apply (proj1 NI). apply dmem_In. exact Q.
        * apply missing_none. intros k e I M. rewrite F1 in I. apply In_dset in I. destruct I as [I|I].
          -- injection I as _ ->. discriminate M.
          -- apply F3. exact (proj1 (missing_none o) S4 k e I M). }
  destruct p as [n x|n|n x t d|n x|a b q|h m|d|  |h|w|]; try (apply L; exact I).
  - unfold step in *. cbn [run_op] in *.
    destruct (set_attr_cases n x o) as [[e H]|[[b [_ [_ H]]]|[w [_ [_ [H _]]]]]]; rewrite H in *; cbn [m_obj fst] in *.
    + exact S.
    + apply (settled_same E cv o _ S DB); auto.
    + apply (settled_same E cv o _ S DB); auto. intros k e _ _ K. cbn [pub with_pub]. apply In_dkeys_dset. right. exact K.
  - specialize (KC n eq_refl). unfold step in *. cbn [run_op] in *.
    destruct (del_attr_cases n o) as [[e H]|[_ [_ [M H]]]]; rewrite H in *; cbn [m_obj fst] in *; [exact S|].
    destruct (M S6) as [e [D ME]].
    apply (settled_same E cv o _ S DB); try reflexivity; try assumption.
    + cbn [custom with_custom]. destruct (custom o) as [cu|] eqn:CU; [|reflexivity]. cbn [option_map]. f_equal.
      apply ddel_not_in. intro I. apply in_map_iff in I. destruct I as [[k e'] [Q I]]. cbn [fst] in Q. subst k.
      rewrite (keep_custom_notin cv cu n e' (S3 cu eq_refl) I) in KC. discriminate KC.
    + intros k e' I M' K. cbn [pub with_custom with_pub].
      assert (NK : k <> n). { intros ->. rewrite (In_dget n e' (conv o) ND I) in D. congruence. }
      apply dget_Some_In in K. destruct K as [y K]. apply dget_Some_In. exists y.
      rewrite dget_ddel_other by congruence. exact K.
  - destruct SP as [SP _]. apply (AD n x t d SP). reflexivity.
  - destruct SP as [SP _]. apply (AD n x "attribute" None SP). reflexivity.
  - apply G. exact (add_missing_settles E a b q o).
Qed.

(** new objects are settled *)
Lemma settled_init E c mandatory version vo ev o : db_ok E -> sofa_init E c mandatory version vo = (ev, Ok o) -> settled E (conv o) o.
Proof.
  intros DB H. destruct (armed_init E c mandatory version vo ev o DB H) as [v [A [P [L [NC [RO [CU _]]]]]]]. split.
  - exists c, v. split; [exact A|]. destruct (load_convention_file _ _ _ _ L) as [f [F1 [F2 [F3 _]]]].
    destruct (file_ok_prefix f c (proj2 DB f F1) F2) as [v' [_ [_ [_ [NL [_ [_ [_ SO]]]]]]]]. rewrite <- F3 in SO.
    destruct (states_own_stored E (conv o) _ v' mandatory (pub o) SO NC eq_refl) as [b Q].
    destruct (ar_version _ _ _ _ _ A) as [b' Q']. rewrite Q in Q'. injection Q' as _ <-. exact NL.
  - rewrite CU. reflexivity.
  - intros cu Q. rewrite CU in Q. discriminate Q.
  - apply missing_none. intros k e I M. apply dget_Some_In. specialize (NC k). destruct (dget k (creation_entries E)); [eauto|].
    rewrite (In_dget k e (conv o) (load_convention_NoDup E c version _ L) I), M in NC. destruct NC as [w [NC _]]. eauto.
  - intros cu ke Q. rewrite CU in Q. discriminate Q.
  - exact P.
Qed.
