(** Every check of verify against the specification of valid objects. *)
From Verif Require Import Base PyStr PyNum NdArray Sofa Verify SpecAttr SpecInit SpecVerify
  BaseFacts StrFacts AttrFacts OpFacts InitFacts ProtFacts AddDelFacts MissingFacts CoreFacts.
From Coq Require Import NArith.
Open Scope string_scope.
Open Scope list_scope.

(** ** Resetting the convention *)
Record reset_to (cv : convention) (o o1 : sofa) : Prop := {
  rt_conv : forall k, dget k (conv o1) = declared cv o k;
  rt_nodup : NoDup (dkeys (conv o1));
  rt_pub : pub o1 = pub o;
  rt_custom : custom o1 = option_map (keep_custom cv) (custom o) }.

Lemma dget_dupdate_nil {A} (cu : dict A) k : NoDup (dkeys cu) -> dget k (dupdate [] cu) = dget k cu.
Proof.
  intro ND. unfold dupdate. destruct (dget k cu) as [e|] eqn:G.
  - apply dget_fold_dset_in; [exact ND|]. apply dget_In. exact G.
  - rewrite dget_fold_dset_notin; [reflexivity|]. apply dget_None. exact G.
Qed.

Lemma reset_declared E o o1 : dicts_ok o -> reset_convention E o = (o1, [], Ok tt) ->
  exists b c w cv, dget "GLOBAL_SOFAConventions" (pub o) = Some (VStr b c)
    /\ dget "GLOBAL_SOFAConventionsVersion" (pub o) = Some w
    /\ verify_convention_and_version E (py_str E w) c = Ok tt
    /\ load_convention E c (py_str E w) = Ok cv /\ reset_to cv o o1.
Proof.
  intros [_ NC] R.
  destruct (reset_convention_cases E o) as [[e H]|[c [b [v [cv [H1 [H2 [H3 [H4 H]]]]]]]]];
    rewrite H in R; [discriminate|].
  exists b, c, v, cv. do 4 (split; [assumption|]).
  assert (ND := load_convention_NoDup _ _ _ _ H4).
  destruct (custom o) as [cu|] eqn:C; inversion R as [O]; subst o1; constructor; cbn.
  - intro k. rewrite dget_dupdate_keep by exact ND. unfold declared, own_custom. rewrite C.
    fold (keep_custom cv cu). destruct (dget k cv); [reflexivity|].
    apply dget_dupdate_nil. apply NoDup_filter_keys. exact NC.
  - apply NoDup_dupdate. exact ND.
  - reflexivity.
  - rewrite C. reflexivity.
  - intro k. unfold declared, own_custom. rewrite C. destruct (dget k cv); reflexivity.
  - exact ND.
  - reflexivity.
  - rewrite C. reflexivity.
Qed.

Lemma strip0_digits s n : digits_val s n <> None -> digits_val (strip0 s) n <> None.
Proof.
  revert n. induction s as [|c s IH]; intros n H; [exact H|].
  cbn [strip0]. destruct (Ascii.eqb c "0" && negb (String.eqb s "")) eqn:B; [|exact H].
  apply IH. cbn [digits_val] in H. apply andb_true_iff in B. destruct B as [B _].
  apply Ascii.eqb_eq in B. subst c. cbn in H.
  assert (X : forall s a b, digits_val s a <> None -> digits_val s b <> None).
  { clear. induction s as [|c s IH]; intros a b H; [discriminate|]. cbn in *.
    destruct (is_digit c); [|contradiction]. eapply IH. exact H. }
  eapply X. exact H.
Qed.

Lemma verify_cv_number E c v : verify_convention_and_version E v c = Ok tt -> db_ok E ->
  v <> "latest".
Proof.
  intros H DB C. subst v. destruct (name_version_spec E DB) as [nv [N1 N2]].
  unfold verify_convention_and_version in H. rewrite N1 in H. cbn [rbind] in H.
  destruct (negb _); [discriminate|].
  assert (F : forall b, rfold (fun b (cv : string * string) =>
     if String.eqb (fst cv) c then match float_str (snd cv) with
       | None => Err (Exn EValueError (snd cv)) | Some f => Ok (b || String.eqb f "latest") end
     else Ok b) nv b = Ok b).
  { assert (OK := proj2 DB). revert N2 OK. clear. generalize (db E). intros l F2. induction F2 as [|f x l nv [P1 P2] F2 IH];
      intros OK b; [reflexivity|]. cbn [rfold].
    assert (IH' := IH (fun g Hg => OK g (or_intror Hg))).
    destruct (String.eqb (fst x) c); [|apply IH']. rewrite P2.
    destruct (String.eqb_spec (snd x) "latest") as [L|L]; [|rewrite orb_false_r; apply IH'].
    rewrite L in P2. discriminate. }
  rewrite F in H. discriminate.
Qed.

Lemma reset_iff E o : db_ok E -> dicts_ok o ->
  (forall o1, reset_convention E o = (o1, [], Ok tt) ->
     exists b c w content, dget "GLOBAL_SOFAConventions" (pub o) = Some (VStr b c)
       /\ dget "GLOBAL_SOFAConventionsVersion" (pub o) = Some w
       /\ has_file E c (py_str E w) content /\ reset_to (sofar_keys content) o o1)
  /\ (forall b c w content, dget "GLOBAL_SOFAConventions" (pub o) = Some (VStr b c) ->
       dget "GLOBAL_SOFAConventionsVersion" (pub o) = Some w ->
       has_file E c (py_str E w) content ->
       exists o1, reset_convention E o = (o1, [], Ok tt)).
Proof.
  intros DB DO. split.
  - intros o1 R. destruct (reset_declared E o o1 DO R) as [b [c [w [cv [H1 [H2 [H3 [H4 H5]]]]]]]].
    assert (NL := verify_cv_number E c _ H3 DB).
    destruct (load_has_file E c _ cv DB NL H4) as [content [HF ->]].
    exists b, c, w, content. auto.
  - intros b c w content H1 H2 HF. unfold reset_convention, getattr. rewrite H1, H2. cbn [as_str].
    rewrite (verify_cv_ok E c _ content DB HF). cbn [rbind].
    destruct (has_file_version E c _ content DB HF) as [_ [_ NL]].
    rewrite (proj1 (load_version E c _ DB NL) content HF). destruct (custom o); eauto.
Qed.

Section Checks.
Context (E : env) (cv : convention) (o o1 : sofa) (R : reset_to cv o o1).

Let RC := rt_conv _ _ _ R.
Let RP := rt_pub _ _ _ R.

Lemma own_custom_eq : own_custom cv o = match custom o1 with Some cu => cu | None => [] end.
Proof. rewrite (rt_custom _ _ _ R). unfold own_custom. destruct (custom o); reflexivity. Qed.

(** ** Mandatory data *)
Lemma missing_iff : missing o1 = [] <->
  forall k e, declared cv o k = Some e -> is_mandatory (e_flags e) = true -> contained o k.
Proof.
  unfold missing, contained. rewrite RP. split.
  - intros H k e D M. rewrite <- RC in D. apply dget_In in D.
    destruct (smem k (dkeys (pub o))) eqn:S; [apply smem_In; exact S|].
    assert (X : In (k, e) (filter (fun kv => is_mandatory (e_flags (snd kv))
        && negb (smem (fst kv) (dkeys (pub o)))) (conv o1))).
    { apply filter_In. split; [exact D|]. cbn [fst snd]. rewrite M, S. reflexivity. }
    rewrite H in X. destruct X.
  - intro H. destruct (filter _ (conv o1)) as [|[k e] l] eqn:F; [reflexivity|].
    assert (X : In (k, e) ((k, e) :: l)) by (left; reflexivity). rewrite <- F in X.
    apply filter_In in X. cbn [fst snd] in X. destruct X as [X1 X2].
    apply andb_true_iff in X2. destruct X2 as [X2 X3]. apply negb_true_iff in X3. apply smem_false in X3.
    exfalso. apply X3. apply (H k e); [|exact X2]. rewrite <- RC.
    apply In_dget; [apply (rt_nodup _ _ _ R)|exact X1].
Qed.

(** ** Types *)
Lemma type_error_iff key t v : type_error E key t v = "" <-> has_type t v.
Proof.
  unfold type_error, has_type.
  destruct (String.eqb_spec t "attribute") as [->|N1].
  { split.
    - destruct v; cbn; intro H; try discriminate. left. eauto.
    - intros [[_ [b [s ->]]]|[[C _]|[C _]]]; [reflexivity|discriminate|discriminate]. }
  destruct (String.eqb_spec t "double") as [->|N2].
  { split.
    - intro H. right; left. split; [reflexivity|].
      destruct v as [b s|[| | | | | |]|a|l]; try discriminate; eauto.
      destruct (a_kind a) eqn:K; try discriminate; eauto 8.
    - intros [[C _]|[[_ H]|[C _]]]; try discriminate.
      destruct H as [[z ->]|[[f ->]|[a [-> [K|K]]]]]; try reflexivity; rewrite K; reflexivity. }
  destruct (String.eqb_spec t "string") as [->|N3].
  { split.
    - intro H. right; right. split; [reflexivity|].
      destruct v as [b s|e|a|l]; try discriminate; eauto.
      destruct (a_kind a) eqn:K; try discriminate; eauto 8.
    - intros [[C _]|[[C _]|[_ H]]]; try discriminate.
      destruct H as [[b [s ->]]|[a [-> K]]]; [reflexivity|]. rewrite K. reflexivity. }
  split; [discriminate|]. intuition congruence.
Qed.

Lemma types_iff : type_errors E o1 (dkeys (pub o1)) = Ok "" <->
  forall k w, dget k (pub o) = Some w -> exists e, declared cv o k = Some e /\ has_type (e_type e) w.
Proof.
  unfold type_errors. rewrite rconcat_nil. rewrite RP. split.
  - intros H k w G. assert (I : In k (dkeys (pub o))) by (apply dget_Some_In; eauto).
    specialize (H k I). unfold dgetE, getattr in H. rewrite RC, RP, G in H.
    destruct (declared cv o k) as [e|]; cbn [rbind] in H; [|discriminate].
    exists e. split; [reflexivity|]. apply (type_error_iff k). congruence.
  - intros H k I. apply dget_Some_In in I. destruct I as [w G].
    destruct (H k w G) as [e [D T]]. unfold dgetE, getattr. rewrite RC, RP, G, D. cbn [rbind].
    f_equal. apply type_error_iff. exact T.
Qed.

(** ** Names *)
Lemma bullets_nil f keys : bullets_if f keys = Ok "" <-> forall k, In k keys -> f k = Ok false.
Proof.
  unfold bullets_if. rewrite rconcat_nil. split; intros H k I; specialize (H k I).
  - destruct (f k) as [[|]|e]; cbn [rbind] in H; [discriminate|reflexivity|discriminate].
  - rewrite H. reflexivity.
Qed.

Lemma startswith_iff p s : startswith p s = true <-> exists r, s = p +++ r.
Proof. apply prefix_spec. Qed.

Lemma before_last_Some c s : has_char c s = true ->
  exists a b, s = a +++ String c b /\ has_char c b = false.
Proof.
  induction s as [|d s IH]; [discriminate|]. cbn [has_char]. intro H.
  destruct (has_char c s) eqn:HS.
  - destruct (IH eq_refl) as [a [b [-> Hb]]]. exists (String d a), b. split; [reflexivity|exact Hb].
  - rewrite orb_false_r in H. apply Ascii.eqb_eq in H. subst d. exists "", s. auto.
Qed.

Lemma names_iff : (forall k, contained o k -> declared cv o k <> None) ->
  name_errors o1 (dkeys (pub o1)) = Ok "" <->
  forall k e, contained o k -> declared cv o k = Some e -> name_ok (declared cv o) k (e_type e).
Proof.
  intro K. unfold name_errors. rewrite RP.
  assert (A : forall k e, declared cv o k = Some e ->
            is_attribute (conv o1) k = Ok (String.eqb (e_type e) "attribute")).
  { intros k e D. unfold is_attribute, dgetE. rewrite RC, D. reflexivity. }
  assert (P : name_errors o1 (dkeys (pub o)) = Ok "" <->
    forall k e, contained o k -> declared cv o k = Some e ->
      orphan_attribute (conv o1) k = Ok false /\ plain_attribute (conv o1) k = Ok false
      /\ bad_variable (conv o1) k = Ok false /\ private_name k = false
      /\ bad_global (conv o1) k = Ok false).
  { unfold name_errors. split.
    - intro H. apply rbind_Ok in H. destruct H as [e1 [H1 H]].
      apply rbind_Ok in H. destruct H as [e2 [H2 H]].
      apply rbind_Ok in H. destruct H as [e3 [H3 H]].
      apply rbind_Ok in H. destruct H as [e4 [H4 H]].
      assert (Q : section msg_orphan e1 +++ section msg_plain e2 +++ section msg_variable e3
                  +++ section msg_reserved e4 = "") by congruence. clear H.
      rewrite !sapp_eq_nil, !section_nil in Q by discriminate. destruct Q as [-> [-> [-> ->]]].
      rewrite bullets_nil in H1, H2, H3. rewrite rconcat_nil in H4.
      intros k e C D. split; [auto|]. split; [auto|]. split; [auto|].
      specialize (H4 k C). cbn beta in H4. destruct (bad_global (conv o1) k) as [b|x]; [|discriminate].
      cbn [rbind] in H4. assert (Q : (if private_name k then bullet k else "") +++
          (if b then bullet k else "") = "") by congruence.
      apply sapp_eq_nil in Q. destruct Q as [Q1 Q2].
      destruct (private_name k); [discriminate|]. destruct b; [discriminate|]. auto.
    - intro H.
      assert (G : forall k, In k (dkeys (pub o)) -> exists e, declared cv o k = Some e).
      { intros k I. destruct (declared cv o k) as [e|] eqn:D; [eauto|]. destruct (K k I D). }
      rewrite (proj2 (bullets_nil (orphan_attribute (conv o1)) _)).
      2:{ intros k I. destruct (G k I) as [e D]. apply (H k e I D). }
      rewrite (proj2 (bullets_nil (plain_attribute (conv o1)) _)).
      2:{ intros k I. destruct (G k I) as [e D]. apply (H k e I D). }
      rewrite (proj2 (bullets_nil (bad_variable (conv o1)) _)).
      2:{ intros k I. destruct (G k I) as [e D]. apply (H k e I D). }
      cbn [rbind]. rewrite (proj2 (rconcat_nil _ _)); [reflexivity|].
      intros k I. destruct (G k I) as [e D]. destruct (H k e I D) as [_ [_ [_ [H1 H2]]]].
      rewrite H2. cbn [rbind]. rewrite H1. reflexivity. }
  unfold name_errors in P. rewrite P. clear P.
  split; intros H k e C D; specialize (H k e C D).
  - destruct H as [H1 [H2 [H3 [H4 H5]]]].
    unfold orphan_attribute, plain_attribute, bad_variable, bad_global in *.
    rewrite (A k e D) in *. cbn [rbind] in *.
    destruct (String.eqb_spec (e_type e) "attribute") as [T|T]; cbn [andb negb] in *.
    + assert (HC : has_char "_" k = true).
      { destruct (has_char "_" k) eqn:X; [reflexivity|]. apply count_char_0 in X. rewrite X in H2. discriminate. }
      destruct (before_last_Some "_" k HC) as [var [a [-> Ha]]].
      split; [|split; [congruence|]].
      { intros _. exists var, a. split; [reflexivity|]. split; [exact Ha|].
        rewrite before_last_app in H1 by exact Ha.
        destruct (startswith "GLOBAL_" (var +++ String "_" a)) eqn:G.
        - right. apply startswith_iff. exact G.
        - left. rewrite <- RC. destruct (Nat.eqb (count_char "_" (var +++ String "_" a)) 0) eqn:Z;
            [congruence|].
          unfold dmem in H1. destruct (dget var (conv o1)); [discriminate|]. cbn in H1. congruence. }
      unfold private_name in H4. apply orb_false_iff in H4. destruct H4 as [P1 P2].
      split; [|split].
      * intros r Q. rewrite (proj2 (startswith_iff _ _)) in P1; [discriminate|eauto].
      * intros r Q. rewrite (proj2 (startswith_iff _ _)) in P2; [discriminate|eauto].
      * intros r Q. split; [exact T|].
        assert (G : startswith "GLOBAL" (var +++ String "_" a) = true) by (apply startswith_iff; eauto).
        rewrite G in H5. cbn [andb] in H5. rewrite orb_false_r in H5.
        destruct (startswith "GLOBAL_" (var +++ String "_" a)) eqn:G2; [|cbn in H5; congruence].
        apply startswith_iff in G2. destruct G2 as [s G2]. exists s. rewrite Q in G2.
        apply (sapp_inv_head "GLOBAL"). exact G2.
    + split; [congruence|]. split; [intros _; congruence|].
      unfold private_name in H4. apply orb_false_iff in H4. destruct H4 as [P1 P2].
      split; [|split].
      * intros r Q. rewrite (proj2 (startswith_iff _ _)) in P1; [discriminate|eauto].
      * intros r Q. rewrite (proj2 (startswith_iff _ _)) in P2; [discriminate|eauto].
      * intros r Q. exfalso.
        assert (G : startswith "GLOBAL" k = true) by (apply startswith_iff; eauto).
        rewrite G in H5. cbn [andb] in H5. rewrite orb_true_r in H5. congruence.
  - destruct H as [H1 [H2 [H3 [H4 H5]]]].
    unfold orphan_attribute, plain_attribute, bad_variable, bad_global.
    rewrite (A k e D). cbn [rbind].
    assert (PR : private_name k = false).
    { unfold private_name. apply orb_false_iff. split.
      - destruct (startswith "PRIVATE" k) eqn:X; [|reflexivity]. apply startswith_iff in X.
        destruct X as [r X]. destruct (H3 r X).
      - destruct (startswith "API" k) eqn:X; [|reflexivity]. apply startswith_iff in X.
        destruct X as [r X]. destruct (H4 r X). }
    assert (BG : ((startswith "GLOBAL" k && negb (startswith "GLOBAL_" k))
      || (startswith "GLOBAL" k && negb (String.eqb (e_type e) "attribute")))%bool = false).
    { destruct (startswith "GLOBAL" k) eqn:X; [|reflexivity]. apply startswith_iff in X.
      destruct X as [r X]. destruct (H5 r X) as [T [s Hs]]. rewrite T. cbn [andb negb String.eqb].
      rewrite (proj2 (startswith_iff "GLOBAL_" k)); [reflexivity|]. exists s. rewrite X, Hs. reflexivity. }
    rewrite BG, PR.
    destruct (String.eqb_spec (e_type e) "attribute") as [T|T]; cbn [andb negb].
    + destruct (H1 T) as [var [a [-> [Ha HV]]]]. change (var +++ "_" +++ a) with (var +++ String "_" a) in *.
      assert (CC : Nat.eqb (count_char "_" (var +++ String "_" a)) 0 = false).
      { apply Nat.eqb_neq. intro X. apply count_char_0 in X. rewrite has_char_app in X. cbn in X.
        rewrite orb_true_r in X. discriminate. }
      rewrite CC, before_last_app by exact Ha. cbn [negb andb].
      split; [|auto]. f_equal. destruct HV as [HV|HV].
      * unfold dmem. rewrite RC. destruct (declared cv o var); [reflexivity|congruence].
      * rewrite (proj2 (startswith_iff "GLOBAL_" _) HV). apply andb_false_r.
    + rewrite (H2 T). auto.
Qed.

(** ** Names of custom data *)
Lemma custom_iff c v b : db_ok E -> (exists content, has_file E c v content /\ cv = sofar_keys content) ->
  dget "GLOBAL_SOFAConventions" (pub o) = Some (VStr b c) ->
  (exists w, dget "GLOBAL_SOFAConventionsVersion" (pub o) = Some w /\ py_str E w = v) ->
  (snd (cust_check (normative_keys E) o1) = Ok "" <-> no_clash E c v cv o).
Proof.
  intros DB [content [HF HC]] N [w [V PV]]. unfold cust_check, no_clash.
  destruct (has_file_version E c v content DB HF) as [_ [_ NL]].
  assert (LD := proj1 (load_version E c v DB NL) content HF).
  assert (RCU := rt_custom _ _ _ R).
  destruct (custom o1) as [cu|] eqn:CU.
  2:{ destruct (custom o); [discriminate|]. split; [left; reflexivity|reflexivity]. }
  assert (OC : own_custom cv o = cu) by (rewrite own_custom_eq, CU; reflexivity).
  destruct (custom o) as [cu0|]; [|discriminate].
  unfold getattr. rewrite RP, N, V. cbn [fst snd]. unfold normative_keys.
  destruct w as [b' v'|x|a|l]; cbn [py_str] in PV.
  2,3,4: cbn [snd rbind]; split; [discriminate|intros [X|[[b' X] _]]; discriminate].
  subst v'. destruct (sofa_init E c false v VAuto) as [ev [o'|x]] eqn:SI; cbn [snd rbind is_ok].
  2:{ split; [discriminate|]. intros [X|[_ [X _]]]; discriminate. }
  destruct (armed_init _ _ _ _ _ _ _ DB SI) as [v' [_ [_ [L' _]]]].
  rewrite LD in L'. assert (CV : conv o' = cv) by congruence. rewrite CV.
  unfold custom_errors. rewrite CU.
  assert (Q : (Ok (section msg_custom (sconcat (fun k => if custom_clash (dkeys cv) k then bullet k else "") (dkeys cu))) = Ok ""
     <-> forall k, In k (dkeys cu) -> custom_clash (dkeys cv) k = false)).
  { split.
    - intros H k I. assert (H' : section msg_custom (sconcat (fun k => if custom_clash (dkeys cv) k then bullet k else "") (dkeys cu)) = "") by congruence.
      rewrite section_nil, sconcat_nil in H' by discriminate. specialize (H' k I). cbn beta in H'.
      destruct (custom_clash (dkeys cv) k); [discriminate|reflexivity].
    - intro H. f_equal. apply section_nil; [discriminate|]. apply sconcat_nil. intros k I.
      rewrite (H k I). reflexivity. }
  rewrite Q, OC. unfold custom_clash, no_global. split.
  - intro H. right. split; [eauto|]. split; [reflexivity|]. intros k n I J EQ.
    specialize (H k I). apply smem_false in H. apply H. rewrite EQ. apply in_map. exact J.
  - intros [X|[_ [_ H]]] k I; [discriminate|]. apply smem_false. intro J. apply in_map_iff in J.
    destruct J as [n [J1 J2]]. apply (H k n I J2). symmetry. exact J1.
Qed.
End Checks.
