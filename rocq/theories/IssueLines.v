(** The lines of the report of verify. *)
From Verif Require Import Base PyStr PyNum NdArray Sofa Verify SpecAttr SpecInit SpecVerify SpecIssues
  BaseFacts StrFacts AttrFacts OpFacts InitFacts ProtFacts AddDelFacts MissingFacts CoreFacts
  ValidFacts ShapeFacts RuleFacts VerifyFacts DictFacts IssueFacts.
From Coq Require Import NArith Lia.
Open Scope string_scope.
Open Scope list_scope.

(** ** Combining lines *)
Definition spells (about : string -> string -> Prop) (s : string) : Prop :=
  exists l, tells about l /\ s = lines l.

Lemma lines_app a b : lines (a ++ b) = lines a +++ lines b.
Proof.
  induction a as [|[k t] a IH]; [reflexivity|]. cbn [app lines]. rewrite IH, !sapp_assoc. reflexivity.
Qed.

Lemma lines_nil l : lines l = "" -> l = [].
Proof. destruct l as [|[k t] l]; [reflexivity|]. cbn [lines]. intro H. discriminate H. Qed.

Lemma spells_iff p q s : (forall k t, p k t <-> q k t) -> spells p s -> spells q s.
Proof.
  intros PQ [l [[H1 H2] ->]]. exists l. split; [|reflexivity].
  split; intros k t H; [apply PQ, H1, H|apply H2, PQ, H].
Qed.

Lemma spells_none p : (forall k t, ~ p k t) -> spells p "".
Proof. intro N. exists []. split; [|reflexivity]. split; [intros k t []|]. intros k t H. destruct (N k t H). Qed.

Lemma spells_one p k t s : (forall k' t', p k' t' <-> k' = k /\ t' = t) -> s = "- " +++ k +++ t -> spells p s.
Proof.
  intros H ->. exists [(k, t)]. split; [|cbn [lines]; rewrite sapp_nil_r; reflexivity].
  split.
  - intros k' t' [Q|[]]. apply H. split; congruence.
  - intros k' t' Q. apply H in Q. destruct Q as [-> ->]. left. reflexivity.
Qed.

Lemma spells_app p q r s t : (forall k u, r k u <-> p k u \/ q k u) ->
  spells p s -> spells q t -> spells r (s +++ t).
Proof.
  intros R [l1 [[A1 A2] ->]] [l2 [[B1 B2] ->]]. exists (l1 ++ l2). split; [|rewrite lines_app; reflexivity].
  split; intros k u H.
  - apply R. apply in_app_or in H. destruct H; auto.
  - apply in_or_app. apply R in H. destruct H; auto.
Qed.

Lemma spells_rconcat {A} (f : A -> res string) (p : A -> string -> string -> Prop) l : forall s,
  rconcat f l = Ok s -> (forall x u, In x l -> f x = Ok u -> spells (p x) u) ->
  spells (fun k t => exists x, In x l /\ p x k t) s.
Proof.
  induction l as [|x l IH]; cbn [rconcat]; intros s H F.
  - injection H as <-. apply spells_none. intros k t [x [[] _]].
  - apply rbind_Ok in H. destruct H as [a [H1 H]]. apply rbind_Ok in H. destruct H as [b [H2 H]].
    injection H as <-.
    eapply spells_app; [|apply (F x a); [left; reflexivity|exact H1]|apply (IH b H2)].
    + intros k t. split.
      * intros [y [[<-|I] P]]; [left; exact P|right; eauto].
      * intros [P|[y [I P]]]; [exists x; split; [left; reflexivity|exact P]|exists y; split; [right; exact I|exact P]].
    + intros y u I. apply F. right. exact I.
Qed.

Lemma spells_sconcat {A} (f : A -> string) (p : A -> string -> string -> Prop) l :
  (forall x, In x l -> spells (p x) (f x)) ->
  spells (fun k t => exists x, In x l /\ p x k t) (sconcat f l).
Proof.
  intro F. apply (spells_rconcat (fun x => Ok (f x))).
  - clear F. induction l as [|x l IH]; [reflexivity|]. cbn [rconcat sconcat rbind]. rewrite IH. reflexivity.
  - intros x u I H. injection H as <-. apply F. exact I.
Qed.

Lemma reports_section head p s : spells p s -> reports head p (section head s).
Proof.
  intros [l [T ->]]. exists l. split; [exact T|]. unfold section.
  destruct l as [|[k t] l]; [reflexivity|]. reflexivity.
Qed.

Lemma spells_bullet (b : bool) k0 p : (forall k t, p k t <-> b = true /\ k = k0 /\ t = nl) ->
  spells p (if b then bullet k0 else "").
Proof.
  intro H. destruct b.
  - apply (spells_one p k0 nl); [|reflexivity]. intros k t. rewrite H. tauto.
  - apply spells_none. intros k t Q. apply H in Q. destruct Q as [Q _]. discriminate Q.
Qed.

(** ** Missing data and types *)
Section First.
Context (E : env) (cv : convention) (o o1 : sofa) (R : reset_to cv o o1).
Let RC := rt_conv _ _ _ R.
Let RP := rt_pub _ _ _ R.

Lemma missing_text : spells (missing_lines cv o) (miss_text o1).
Proof.
  unfold miss_text.
  eapply spells_iff; [|apply (spells_sconcat _ (fun kv k t => k = fst kv /\ t = nl))].
  - intros k t. unfold missing_lines, lacks, missing. split.
    + intros [[j e] [I [-> ->]]]. apply filter_In in I. cbn [fst snd] in *. destruct I as [I B].
      apply andb_true_iff in B. destruct B as [B1 B2]. apply negb_true_iff in B2. apply smem_false in B2.
      split; [|reflexivity]. exists e. split; [|split; [exact B1|]].
      * rewrite <- RC. apply In_dget; [apply (rt_nodup _ _ _ R)|exact I].
      * unfold contained. rewrite <- RP. exact B2.
    + intros [[e [D [M NC]]] ->]. exists (k, e). cbn [fst snd]. split; [|auto].
      apply filter_In. split; [apply dget_In; rewrite RC; exact D|]. cbn [fst snd]. rewrite M.
      apply negb_true_iff, smem_false. rewrite RP. exact NC.
  - intros kv _. apply (spells_one _ (fst kv) nl); [|reflexivity]. tauto.
Qed.

Lemma type_text_line k t v :
  (has_type t v /\ type_error E k t v = "")
  \/ (~ has_type t v /\ type_error E k t v
      = "- " +++ k +++ (if smem t ["attribute"; "double"; "string"]
            then " must be " +++ demand t v +++ " but is " +++ type_of E v
            else ": Error in convention. Type must be double, string, or attribute but is " +++ t) +++ nl).
Proof.
  destruct (String.eqb_spec (type_error E k t v) "") as [Q|Q].
  - left. split; [apply (type_error_iff E k); exact Q|exact Q].
  - right. split; [intro H; apply Q; apply type_error_iff; exact H|]. revert Q.
    unfold type_error, demand. cbn [smem existsb].
    destruct (String.eqb_spec t "attribute") as [->|N1]; cbn [orb].
    { destruct v; cbn [is_str]; intro Q; [congruence|reflexivity..]. }
    destruct (String.eqb_spec t "double") as [->|N2]; cbn [orb].
    { destruct v as [b s|[| | | | | |]|a|l]; intro Q; try congruence; try reflexivity.
      destruct (a_kind a); try congruence; reflexivity. }
    destruct (String.eqb_spec t "string") as [->|N3]; cbn [orb].
    { destruct v as [b s|e|a|l]; intro Q; try congruence; try reflexivity.
      destruct (a_kind a); try congruence; reflexivity. }
    intros _. reflexivity.
Qed.

Lemma types_text t : type_errors E o1 (dkeys (pub o1)) = Ok t -> spells (type_lines E cv o) t.
Proof.
  unfold type_errors. intro H.
  eapply spells_iff; [|apply (spells_rconcat _ (fun k k' u => k' = k /\ type_lines E cv o k u) _ _ H)].
  - intros k u. split; [intros [x [_ [-> L]]]; exact L|]. intro L. exists k. split; [|auto].
    destruct L as [e [v [_ [G _]]]]. rewrite RP. apply dget_Some_In. eauto.
  - intros k u I F. apply rbind_Ok in F. destruct F as [e [F1 F]]. apply rbind_Ok in F. destruct F as [v [F2 F]].
    injection F as <-. unfold dgetE in F1. rewrite RC in F1. destruct (declared cv o k) as [e'|] eqn:D; [|discriminate F1].
    injection F1 as ->. unfold getattr in F2. rewrite RP in F2.
    destruct (dget k (pub o)) as [v'|] eqn:G; [|destruct (smem k class_attrs); discriminate F2].
    injection F2 as ->.
    destruct (type_text_line k (e_type e) v) as [[T ->]|[T ->]].
    + apply spells_none. intros k' u [-> [e2 [v2 [D2 [G2 [N _]]]]]]. rewrite D in D2. rewrite G in G2.
      injection D2 as <-. injection G2 as <-. contradiction.
    + eapply spells_one; [|reflexivity]. intros k' u. split.
      * intros [-> [e2 [v2 [D2 [G2 [N ->]]]]]]. rewrite D in D2. rewrite G in G2.
        injection D2 as <-. injection G2 as <-. split; reflexivity.
      * intros [-> ->]. split; [reflexivity|]. exists e, v. auto.
Qed.
End First.

(** ** Names *)
Section Names.
Context (E : env) (cv : convention) (o o1 : sofa) (R : reset_to cv o o1).
Let RC := rt_conv _ _ _ R.
Let RP := rt_pub _ _ _ R.

Lemma attribute_iff k b : is_attribute (conv o1) k = Ok b ->
  exists e, declared cv o k = Some e /\ b = String.eqb (e_type e) "attribute".
Proof.
  unfold is_attribute, dgetE. rewrite RC. destruct (declared cv o k) as [e|]; cbn [rbind]; [|discriminate].
  intro H. injection H as <-. eauto.
Qed.

Lemma bullets_text (f : string -> res bool) (p : string -> Prop) (q : string -> string -> Prop) s :
  bullets_if f (dkeys (pub o1)) = Ok s ->
  (forall k b, f k = Ok b -> (b = true <-> p k)) ->
  (forall k t, q k t <-> contained o k /\ p k /\ t = nl) -> spells q s.
Proof.
  intros H F Q. unfold bullets_if in H.
  eapply spells_iff; [|apply (spells_rconcat _ (fun k k' t => k' = k /\ p k /\ t = nl) _ _ H)].
  - intros k t. rewrite Q. unfold contained. rewrite RP. split.
    + intros [x [I [-> [P ->]]]]. auto.
    + intros [C [P ->]]. exists k. auto.
  - intros k u I FK. apply rbind_Ok in FK. destruct FK as [b [F1 F2]]. injection F2 as <-.
    apply spells_bullet. intros k' t. rewrite (F k b F1). tauto.
Qed.

Lemma startswith_not p s : startswith p s = false <-> forall r, s <> p +++ r.
Proof.
  split.
  - intros H r Q. assert (X : startswith p s = true) by (apply startswith_iff; eauto). congruence.
  - intro H. destruct (startswith p s) eqn:S1; [|reflexivity]. apply startswith_iff in S1.
    destruct S1 as [r Q]. destruct (H r Q).
Qed.

Lemma names_text s : name_errors o1 (dkeys (pub o1)) = Ok s ->
  exists s1 s2 s3 s4, s = s1 +++ s2 +++ s3 +++ s4
    /\ reports msg_orphan (orphan_lines cv o) s1 /\ reports msg_plain (plain_lines cv o) s2
    /\ reports msg_variable (variable_lines cv o) s3 /\ reports msg_reserved (reserved_lines cv o) s4.
Proof.
  unfold name_errors. cbv zeta. intro H.
  apply rbind_Ok in H. destruct H as [e1 [H1 H]]. apply rbind_Ok in H. destruct H as [e2 [H2 H]].
  apply rbind_Ok in H. destruct H as [e3 [H3 H]]. apply rbind_Ok in H. destruct H as [e4 [H4 H]].
  injection H as <-. do 4 eexists. split; [reflexivity|].
  split; [|split; [|split]]; apply reports_section.
  - eapply (bullets_text (orphan_attribute (conv o1))
      (fun k => (exists e, declared cv o k = Some e /\ e_type e = "attribute")
        /\ (exists var a, k = var +++ "_" +++ a /\ has_char "_" a = false /\ declared cv o var = None)
        /\ (forall r, k <> "GLOBAL_" +++ r)) _ _ H1); [|unfold orphan_lines; tauto].
    intros k b F. unfold orphan_attribute in F. apply rbind_Ok in F. destruct F as [a [F1 F2]].
    apply attribute_iff in F1. destruct F1 as [e [D ->]]. injection F2 as <-. rewrite D.
    rewrite !andb_true_iff, !negb_true_iff, startswith_not.
    assert (T : String.eqb (e_type e) "attribute" = true <-> exists e', Some e = Some e' /\ e_type e' = "attribute").
    { rewrite String.eqb_eq. split; [eauto|]. intros [e' [Q T]]. congruence. }
    rewrite T. split.
    + intros [[[A B] C] G]. split; [exact A|]. split; [|exact G].
      assert (HC : has_char "_" k = true).
      { destruct (has_char "_" k) eqn:X; [reflexivity|]. apply count_char_0 in X. rewrite X in B. discriminate B. }
      destruct (before_last_Some "_" k HC) as [var [a [-> Ha]]]. rewrite before_last_app in C by exact Ha.
      exists var, a. split; [reflexivity|]. split; [exact Ha|]. unfold dmem in C. rewrite RC in C.
      destruct (declared cv o var); [discriminate C|reflexivity].
    + intros [A [[var [a [-> [Ha DV]]]] G]]. change (var +++ "_" +++ a) with (var +++ String "_" a) in *.
      split; [|exact G]. split; [split; [exact A|]|].
      * apply Nat.eqb_neq. intro X. apply count_char_0 in X. rewrite has_char_app in X. cbn in X.
        rewrite orb_true_r in X. discriminate X.
      * rewrite before_last_app by exact Ha. unfold dmem. rewrite RC, DV. reflexivity.
  - eapply (bullets_text (plain_attribute (conv o1))
      (fun k => (exists e, declared cv o k = Some e /\ e_type e = "attribute") /\ has_char "_" k = false) _ _ H2);
      [|unfold plain_lines; tauto].
    intros k b F. unfold plain_attribute in F. apply rbind_Ok in F. destruct F as [a [F1 F2]].
    apply attribute_iff in F1. destruct F1 as [e [D ->]]. injection F2 as <-. rewrite D.
    rewrite andb_true_iff, Nat.eqb_eq, count_char_0, String.eqb_eq. split.
    + intros [A B]. split; [eauto|exact B].
    + intros [[e' [Q A]] B]. split; [congruence|exact B].
  - eapply (bullets_text (bad_variable (conv o1))
      (fun k => (exists e, declared cv o k = Some e /\ e_type e <> "attribute")
         /\ has_char "_" (replace "Data_" "" k) = true) _ _ H3); [|unfold variable_lines; tauto].
    intros k b F. unfold bad_variable in F. apply rbind_Ok in F. destruct F as [a [F1 F2]].
    apply attribute_iff in F1. destruct F1 as [e [D ->]]. injection F2 as <-. rewrite D.
    rewrite andb_true_iff, negb_true_iff, String.eqb_neq. split.
    + intros [A B]. split; [eauto|exact B].
    + intros [[e' [Q A]] B]. split; [congruence|exact B].
  - set (p := fun k => (exists r, k = "PRIVATE" +++ r) \/ (exists r, k = "API" +++ r)).
    set (q := fun k => (exists r, k = "GLOBAL" +++ r)
          /\ ((forall r, k <> "GLOBAL_" +++ r)
              \/ exists e, declared cv o k = Some e /\ e_type e <> "attribute")).
    eapply spells_iff; [|apply (spells_rconcat _ (fun k k' t => k' = k /\ (p k \/ q k) /\ t = nl) _ _ H4)].
    + intros k t. unfold reserved_lines, contained. rewrite RP. split.
      * intros [x [I [-> [P ->]]]]. split; [exact I|]. split; [reflexivity|]. unfold p, q in P. tauto.
      * intros [I [-> P]]. exists k. split; [exact I|]. split; [reflexivity|]. unfold p, q. tauto.
    + intros k u I F. apply rbind_Ok in F. destruct F as [b [F1 F2]]. injection F2 as <-.
      eapply (spells_app (fun k' t => private_name k = true /\ k' = k /\ t = nl)
                         (fun k' t => b = true /\ k' = k /\ t = nl));
        [|apply spells_bullet; tauto|apply spells_bullet; tauto].
      unfold bad_global in F1. apply rbind_Ok in F1. destruct F1 as [a [F1 F2]].
      apply attribute_iff in F1. destruct F1 as [e [D ->]]. injection F2 as <-.
      assert (PP : private_name k = true <-> p k).
      { unfold private_name, p. rewrite orb_true_iff, !startswith_iff. reflexivity. }
      assert (QQ : (startswith "GLOBAL" k && negb (startswith "GLOBAL_" k)
          || startswith "GLOBAL" k && negb (String.eqb (e_type e) "attribute"))%bool = true <-> q k).
      { unfold q. rewrite D, orb_true_iff, !andb_true_iff, !negb_true_iff, startswith_not, startswith_iff, String.eqb_neq.
        assert (X : e_type e <> "attribute" <-> exists e0, Some e = Some e0 /\ e_type e0 <> "attribute").
        { split; [eauto|]. intros [e0 [Q X]]. congruence. }
        rewrite <- X. tauto. }
      intros k' t. rewrite PP, QQ. tauto.
Qed.

Lemma custom_text c v b s : db_ok E -> (exists content, has_file E c v content /\ cv = sofar_keys content) ->
  dget "GLOBAL_SOFAConventions" (pub o) = Some (VStr b c) ->
  (exists w, dget "GLOBAL_SOFAConventionsVersion" (pub o) = Some w /\ py_str E w = v) ->
  snd (cust_check (normative_keys E) o1) = Ok s -> reports msg_custom (custom_lines cv o) s.
Proof.
  intros DB [content [HF HC]] N [w [V PV]]. unfold cust_check.
  destruct (has_file_version E c v content DB HF) as [_ [_ NL]].
  assert (LD := proj1 (load_version E c v DB NL) content HF).
  destruct (custom o1) as [cu|] eqn:CU; cbn [snd].
  2:{ intro H. injection H as <-. apply (reports_section msg_custom _ ""). apply spells_none.
      intros k t [I _]. rewrite (own_custom_eq cv o o1 R), CU in I. destruct I. }
  assert (OC : own_custom cv o = cu) by (rewrite (own_custom_eq cv o o1 R), CU; reflexivity).
  unfold getattr. rewrite RP, N, V. cbn [fst snd]. unfold normative_keys.
  destruct w as [b' v'|x|a|l]; cbn [py_str] in PV.
  2,3,4: intro H; discriminate H.
  subst v'. destruct (sofa_init E c false v VAuto) as [ev [o'|x]] eqn:SI; cbn [snd rbind]; [|intro H; discriminate H].
  destruct (armed_init _ _ _ _ _ _ _ DB SI) as [v' [_ [_ [L' _]]]].
  rewrite LD in L'. assert (CV : conv o' = cv) by congruence. rewrite CV.
  unfold custom_errors. rewrite CU. intro H. injection H as <-. apply reports_section.
  eapply spells_iff; [|apply (spells_sconcat _ (fun k k' t => custom_clash (dkeys cv) k = true /\ k' = k /\ t = nl))].
  - assert (CC : forall k, custom_clash (dkeys cv) k = true
       <-> exists n, In n (dkeys cv) /\ replace "GLOBAL_" "" k = replace "GLOBAL_" "" n).
    { intro k. unfold custom_clash, no_global. rewrite smem_In, in_map_iff. split.
      - intros [n [Q I]]. exists n. auto.
      - intros [n [I Q]]. exists n. auto. }
    intros k t. unfold custom_lines. rewrite OC. split.
    + intros [x [I [P [-> ->]]]]. split; [exact I|]. split; [reflexivity|]. apply CC. exact P.
    + intros [I [-> P]]. exists k. split; [exact I|]. split; [apply CC; exact P|auto].
  - intros k I. apply spells_bullet. tauto.
Qed.
End Names.

(** ** Shapes *)
Section Shapes.
Context (E : env) (cv : convention) (o o1 : sofa) (R : reset_to cv o o1)
  (DO : dicts_ok o) (NL : no_lists o) (s : dacc) (HD : detect o1 = (s, Ok tt)).
Let RC := rt_conv _ _ _ R.
Let RP := rt_pub _ _ _ R.
Let a := fixed_sizes s.
Let SZ : forall x n, dget x a = Some n <-> size cv o x n := sizes_iff cv o o1 R DO NL s HD.

Lemma rmap_iff {A B} (f : A -> res B) (P : A -> B -> Prop) l r :
  (forall x y, f x = Ok y <-> P x y) -> (rmap f l = Ok r <-> Forall2 P l r).
Proof.
  intro H. rewrite rmap_Ok_Forall2. split; intro F; refine (Forall2_impl' _ _ _ _ _ F); intros x y; apply H.
Qed.

Lemma verbose_iff d t : dims_verbose a d = Ok t <->
  exists ch, Forall2 (choice cv o) (split "," (replace " " "" (upper d))) ch /\ t = join ", " ch.
Proof.
  unfold dims_verbose.
  assert (C : forall alt x,
     (let? p := rmap (fun c => let? n := dgetE (str1 c) a in Ok (str1 c +++ "=" +++ nat_str n)) (chars alt) in
      Ok ("(" +++ join ", " p +++ ")")) = Ok x <-> choice cv o alt x).
  { intros alt x. unfold choice.
    assert (L : forall l, rmap (fun c => let? n := dgetE (str1 c) a in Ok (str1 c +++ "=" +++ nat_str n)) (chars alt) = Ok l
      <-> Forall2 (fun c x => exists n, size cv o (str1 c) n /\ x = str1 c +++ "=" +++ nat_str n) (chars alt) l).
    { intro l. apply rmap_iff. intros c y. unfold dgetE. split.
      - intro H. apply rbind_Ok in H. destruct H as [n [H1 H2]]. exists n.
        destruct (dget (str1 c) a) as [n'|] eqn:G; [|discriminate H1]. injection H1 as ->.
        split; [apply SZ; exact G|congruence].
      - intros [n [H1 ->]]. apply SZ in H1. rewrite H1. reflexivity. }
    split.
    - intro H. apply rbind_Ok in H. destruct H as [l [H1 H2]]. exists l. split; [apply L; exact H1|congruence].
    - intros [l [H1 ->]]. apply L in H1. rewrite H1. reflexivity. }
  split.
  - intro H. apply rbind_Ok in H. destruct H as [ch [H1 H2]]. exists ch. split; [|congruence].
    apply (rmap_iff _ _ _ _ C). exact H1.
  - intros [ch [H1 ->]]. apply (rmap_iff _ _ _ _ C) in H1. rewrite H1. reflexivity.
Qed.

Lemma shape_fit_eq act n : shape_fit act n = map (fun i => nth i act 1) (seq 0 n).
Proof.
  apply nth_ext with (d := 0) (d' := 0); [rewrite shape_fit_length, map_length, seq_length; reflexivity|].
  intros i L. rewrite shape_fit_length in L.
  rewrite (nth_error_nth _ _ _ (shape_fit_nth act n i L)).
  assert (X : nth_error (map (fun i => nth i act 1) (seq 0 n)) i = Some (nth i act 1)).
  { rewrite nth_error_map, (nth_error_nth' _ 0) by (rewrite seq_length; exact L).
    rewrite seq_nth by exact L. reflexivity. }
  rewrite (nth_error_nth _ _ _ X). reflexivity.
Qed.

Lemma shape_line k : In k (variables cv o) -> forall dm t, check_shape o1 a k = Ok (dm, t) ->
  spells (fun k' u => k' = k /\ shape_lines cv o k u) t /\ (dm <> None -> t = "").
Proof.
  intros IV dm t H. assert (OK := check_shape_ok cv o o1 R DO NL s HD k IV). fold a in OK.
  destruct dm as [dm|].
  - assert (T : t = "").
    { destruct (check_shape_cases cv o o1 s k IV _ H) as [[dm' Q]|[m' [_ Q]]]; congruence. }
    subst t. split; [|reflexivity]. apply spells_none. intros k' u [-> [_ [N _]]]. apply N. apply OK. eauto.
  - split; [|congruence]. assert (CS := H). unfold check_shape in H.
    apply rbind_Ok in H. destruct H as [act [H1 H]]. apply rbind_Ok in H. destruct H as [d [H2 H]].
    apply rbind_Ok in H. destruct H as [mm [H3 H]]. destruct mm as [dm'|]; [discriminate H|].
    apply rbind_Ok in H. destruct H as [vb [H4 H]]. injection H as <-.
    assert (D2 := H2). unfold dims_of, dgetE in H2. rewrite RC in H2.
    destruct (declared cv o k) as [e|] eqn:D; [|discriminate H2]. cbn [rbind] in H2.
    destruct (e_dims e) as [d'|] eqn:ED; [|discriminate H2]. injection H2 as ->.
    destruct (dget k (pub o)) as [v|] eqn:G.
    2:{ exfalso. unfold shape_act, getattr in H1. rewrite D2, RP, G in H1. unfold dgetE in H1. rewrite RC, D in H1.
        cbn [rbind] in H1. destruct (smem k class_attrs); discriminate H1. }
    assert (SA := shape_act_iff cv o o1 R NL k e d v). 
    apply (spells_one _ k (" has shape " +++ tuple_str (shape_fit act (String.length (last (split ", " d) "")))
                +++ " but must have " +++ vb +++ nl)); [|reflexivity].
    intros k' u. split.
    + intros [-> [_ [_ [e2 [d2 [v2 [sh [ch [X1 [X2 [X3 [X4 [X5 ->]]]]]]]]]]]]]. split; [reflexivity|].
      rewrite D in X1. injection X1 as <-. rewrite ED in X2. injection X2 as <-. rewrite G in X3. injection X3 as <-.
      assert (A : act = sh). { apply (SA sh D ED G) in X4. congruence. } subst sh.
      assert (B : dims_verbose a d = Ok (join ", " ch)) by (apply verbose_iff; eauto).
      assert (vb = join ", " ch) as -> by congruence.
      rewrite shape_fit_eq. reflexivity.
    + intros [-> ->]. split; [reflexivity|]. split; [exact IV|]. split.
      { intro Y. apply OK in Y. destruct Y as [dm Y]. rewrite CS in Y. discriminate Y. }
      apply verbose_iff in H4. destruct H4 as [ch [H4 ->]].
      exists e, d, v, act, ch. split; [exact D|]. split; [exact ED|]. split; [exact G|].
      split; [apply (SA act D ED G); exact H1|]. split; [exact H4|]. rewrite shape_fit_eq. reflexivity.
Qed.

Lemma shapes_lines ks : (forall k, In k ks -> In k (variables cv o)) -> forall d err d' r,
  check_shapes o1 a ks d err = (d', Ok r) ->
  exists t, r = err +++ t /\ spells (fun k u => In k ks /\ shape_lines cv o k u) t.
Proof.
  induction ks as [|k ks IH]; intros HK d err d' r H; cbn [check_shapes] in H.
  - injection H as _ <-. exists "". split; [rewrite sapp_nil_r; reflexivity|].
    apply spells_none. intros k t [[] _].
  - assert (IV := HK k (or_introl eq_refl)).
    assert (HK' : forall j, In j ks -> In j (variables cv o)) by (intros; apply HK; right; assumption).
    destruct (check_shape o1 a k) as [[dm m]|e] eqn:CS; [|discriminate H].
    destruct (shape_line k IV dm m CS) as [L1 L2].
    assert (Q : exists t, r = err +++ m +++ t /\ spells (fun k u => In k ks /\ shape_lines cv o k u) t).
    { destruct dm as [dm|].
      - rewrite L2 by discriminate. apply (IH HK' _ _ _ _ H).
      - destruct (IH HK' _ _ _ _ H) as [t [-> T]]. exists t. split; [apply sapp_assoc|exact T]. }
    destruct Q as [t [-> T]]. exists (m +++ t). split; [reflexivity|].
    eapply spells_app; [|exact L1|exact T]. intros k' u. split.
    + intros [[<-|I] L]; [left; auto|right; auto].
    + intros [[-> L]|[I L]]; split; auto; [left; reflexivity|right; exact I].
Qed.

Lemma shapes_text d t : dims_pure o1 = (a, d, Ok t) -> spells (shape_lines cv o) t.
Proof.
  unfold dims_pure. rewrite HD. fold a. rewrite (dim_keys_eq cv o o1 R).
  destruct (check_shapes o1 a (variables cv o) [] "") as [d2 r] eqn:CS. intro H. injection H as _ ->.
  destruct (shapes_lines _ (fun k h => h) _ _ _ _ CS) as [t' [-> T]].
  eapply spells_iff; [|exact T]. intros k u. split; [tauto|]. intro L. split; [apply L|exact L].
Qed.
End Shapes.

(** ** Rules *)
Section Rules.
Context (E : env) (cv : convention) (o o1 : sofa) (a : dict nat)
  (RP : pub o1 = pub o) (SZ : forall x n, dget x a = Some n <-> size cv o x n).

Lemma value_bool key v ref ok : dget key (pub o) = Some v ->
  verify_value v (Some ref) (aliases E) key = Ok ok -> (ok = true <-> allowed_value E o key ref).
Proof.
  intros G H. unfold allowed_value. rewrite G. split.
  - intros ->. apply verify_value_iff in H. destruct H as [b [s [-> H]]]. exists b, s. auto.
  - intros [b [s [Q A]]]. injection Q as ->.
    assert (X : verify_value (VStr b s) (Some ref) (aliases E) key = Ok true).
    { apply verify_value_iff. eauto. }
    congruence.
Qed.

Lemma nat_mem_In n ns : nat_mem n ns = true <-> In n ns.
Proof.
  unfold nat_mem. rewrite existsb_exists. split.
  - intros [y [I Q]]. apply Nat.eqb_eq in Q. subst. exact I.
  - intro I. exists n. split; [exact I|apply Nat.eqb_refl].
Qed.

(** the problems of one dependency *)
Inductive dep_lines (key s : string) (kd : string * dep) : string -> string -> Prop :=
| dl_required ref : snd kd = DepVal ref -> ~ contained o (python_name (fst kd)) ->
    dep_lines key s kd (python_name (fst kd))
      (" must be given if " +++ key +++ " is " +++ s +++ nl)
| dl_specific v ref : snd kd = DepVal (Some ref) ->
    dget (python_name (fst kd)) (pub o) = Some v -> ~ allowed_value E o (python_name (fst kd)) ref ->
    dep_lines key s kd (python_name (fst kd))
      (" is " +++ py_str E v +++ " but must be " +++ join ", " ref +++ " if " +++ key +++ " is " +++ s +++ nl)
| dl_size sizes x ns text n : snd kd = DepDims sizes ->
    In (x, (ns, text)) sizes -> size cv o x n -> ~ In n ns ->
    dep_lines key s kd ("Dimension " +++ x)
      (" is of size " +++ nat_str n +++ " but must be " +++ text +++ " if " +++ key +++ " is " +++ s +++ nl).

Lemma dep_text key b s kd t : not_method (fst kd) ->
  check_dep E o1 a key (VStr b s) kd = Ok t -> spells (dep_lines key s kd) t.
Proof.
  intros NM H. unfold check_dep in H. destruct kd as [k [l|ref]]; cbn [fst snd py_str] in *.
  - eapply spells_iff; [|apply (spells_rconcat _ (fun dr k' u => exists n,
       size cv o (fst dr) n /\ ~ In n (fst (snd dr)) /\ k' = "Dimension " +++ fst dr
       /\ u = " is of size " +++ nat_str n +++ " but must be " +++ snd (snd dr) +++ " if " +++ key +++ " is " +++ s +++ nl) _ _ H)].
    + intros k' u. split.
      * intros [[x [ns tx]] [I [n [S1 [N1 [-> ->]]]]]]. cbn [fst snd] in *.
        eapply dl_size; [reflexivity|exact I|exact S1|exact N1].
      * intro L. inversion L as [ref Q|v ref Q|sizes x ns tx n Q I S1 N1]; subst; cbn [fst snd] in *; try discriminate Q.
        injection Q as <-. exists (x, (ns, tx)). split; [exact I|]. exists n. cbn [fst snd]. auto.
    + intros [x [ns tx]] u I F. cbn [fst snd] in *. apply rbind_Ok in F. destruct F as [n [F1 F2]].
      unfold dgetE in F1. destruct (dget x a) as [n'|] eqn:G; [|discriminate F1]. injection F1 as ->.
      apply SZ in G. injection F2 as <-. destruct (nat_mem n ns) eqn:M.
      * apply nat_mem_In in M. apply spells_none. intros k' u [n2 [S2 [N2 _]]]. apply SZ in S2. apply SZ in G.
        assert (n2 = n) by congruence. subst. contradiction.
      * eapply (spells_one _ ("Dimension " +++ x)); [|rewrite sapp_assoc; reflexivity].
        intros k' u. split.
        -- intros [n2 [S2 [N2 [-> ->]]]]. apply SZ in S2. apply SZ in G.
           assert (n2 = n) by congruence. subst. auto.
        -- intros [-> ->]. exists n. split; [exact G|]. split; [|auto]. intro X. apply nat_mem_In in X. congruence.
  - assert (HC := hasattr_contained o1 k NM). unfold contained in HC. rewrite RP in HC.
    destruct (hasattr o1 (sofar_name k)) eqn:HA; cbn [negb] in H.
    + assert (I := proj1 HC eq_refl). assert (I' := I). apply dget_Some_In in I. destruct I as [v G].
      destruct ref as [ref|].
      * rewrite (getattr_name o o1 RP k v G) in H. cbn [rbind] in H. rewrite sofar_name_eq in H.
        apply rbind_Ok in H. destruct H as [ok [H1 H2]]. injection H2 as <-.
        assert (V := value_bool _ _ _ _ G H1). destruct ok.
        -- apply spells_none. intros k' u L.
           inversion L as [ref2 Q NC|v2 ref2 Q G2 N|sizes x ns tx n Q I S1 N1]; cbn [fst snd] in *; try discriminate Q.
           ++ apply NC. exact I'.
           ++ injection Q as ->. apply N. apply V. reflexivity.
        -- eapply spells_one; [|reflexivity]. intros k' u. split.
           ++ intro L. inversion L as [ref2 Q NC|v2 ref2 Q G2 N|sizes x ns tx n Q I S1 N1]; cbn [fst snd] in *; try discriminate Q.
              ** destruct (NC I').
              ** injection Q as <-. rewrite G in G2. injection G2 as <-. auto.
           ++ intros [-> ->]. apply (dl_specific key s (k, DepVal (Some ref)) v ref); [reflexivity|exact G|].
              intro X. apply V in X. discriminate X.
      * injection H as <-. apply spells_none. intros k' u L.
        inversion L as [ref2 Q NC|v2 ref2 Q G2 N|sizes x ns tx n Q I S1 N1]; cbn [fst snd] in *; try discriminate Q.
        apply NC. exact I'.
    + injection H as <-. rewrite sofar_name_eq.
      assert (NI : ~ contained o (python_name k)). { intro X. apply HC in X. discriminate X. }
      eapply spells_one; [|reflexivity]. intros k' u. split.
      * intro L. inversion L as [ref2 Q NC|v2 ref2 Q G2 N|sizes x ns tx n Q I S1 N1]; cbn [fst snd] in *; try discriminate Q.
        -- auto.
        -- destruct NI. apply dget_Some_In. eauto.
      * intros [-> ->]. apply (dl_required key s (k, DepVal ref) ref); [reflexivity|exact NI].
Qed.

(** the problems of one rule *)
Inductive one_rule (key : string) (r : rule) : string -> string -> Prop :=
| or_value v ref : dget (python_name key) (pub o) = Some v -> r_value r = Some ref ->
    ~ allowed_value E o (python_name key) ref ->
    one_rule key r (python_name key)
      (" is " +++ py_str E v +++ " but must be " +++ join ", " ref +++ nl)
| or_general g : contained o (python_name key) ->
    In g (r_general r) -> ~ contained o (python_name g) ->
    one_rule key r (python_name g)
      (" must be given if " +++ python_name key +++ " is in SOFA object" +++ nl)
| or_dep b s sp items kd k t :
    dget (python_name key) (pub o) = Some (VStr b s) -> r_specific r = Some sp ->
    dget (dep_case s) sp = Some items -> In kd items ->
    dep_lines (python_name key) (dep_case s) kd k t -> one_rule key r k t.

Lemma rule_text key r t : In (key, r) (rules E) -> rules_tidy E ->
  check_rule E o1 a (key, r) = Ok t -> spells (one_rule key r) t.
Proof.
  intros IR RT H. destruct (RT key r IR) as [NM [NG NS]]. unfold check_rule in H. cbn [fst snd] in H.
  assert (HC := hasattr_contained o1 key NM). unfold contained in HC. rewrite RP in HC.
  destruct (hasattr o1 (sofar_name key)) eqn:HA; cbn [negb] in H.
  2:{ injection H as <-.
      assert (NC : ~ In (python_name key) (dkeys (pub o))) by (intro X; apply HC in X; discriminate X).
      apply spells_none. intros k u L. destruct L as [v ref G _ _|g C _ _|b s sp items kd k t G _ _ _ _].
      - apply NC. apply dget_Some_In. eauto.
      - apply NC. exact C.
      - apply NC. apply dget_Some_In. eauto. }
  assert (C := proj1 HC eq_refl). assert (I := C). apply dget_Some_In in I. destruct I as [v G].
  rewrite (getattr_name o o1 RP key v G) in H. cbn [rbind] in H.
  apply rbind_Ok in H. destruct H as [ok [H1 H]]. cbv zeta in H.
  apply rbind_Ok in H. destruct H as [items [H2 H]]. apply rbind_Ok in H. destruct H as [e3 [H3 H]].
  injection H as <-. rewrite sofar_name_eq in *.
  set (p1 := fun k u => exists ref, r_value r = Some ref /\ ~ allowed_value E o (python_name key) ref
     /\ k = python_name key /\ u = " is " +++ py_str E v +++ " but must be " +++ join ", " ref +++ nl).
  set (p2 := fun k u => exists g, In g (r_general r) /\ ~ contained o (python_name g) /\ k = python_name g
     /\ u = " must be given if " +++ python_name key +++ " is in SOFA object" +++ nl).
  set (p3 := fun k u => exists b s sp items kd, v = VStr b s /\ r_specific r = Some sp
     /\ dget (dep_case s) sp = Some items /\ In kd items /\ dep_lines (python_name key) (dep_case s) kd k u).
  eapply (spells_app p1 (fun k u => p2 k u \/ p3 k u)).
  { intros k u. split.
    - intros [v2 ref G2 V N|g _ J N|b s sp it kd k2 t G2 S1 D J L].
      + left. rewrite G in G2. injection G2 as <-. exists ref. auto.
      + right. left. exists g. auto.
      + right. right. rewrite G in G2. injection G2 as ->. exists b, s, sp, it, kd. auto.
    - intros [[ref [V [N [-> ->]]]]|[[g [J [N [-> ->]]]]|[b [s [sp [it [kd [-> [S1 [D [J L]]]]]]]]]]].
      + apply or_value; assumption.
      + apply or_general; assumption.
      + eapply or_dep; eassumption. }
  - destruct (r_value r) as [ref|] eqn:RV.
    + assert (V := value_bool _ _ _ _ G H1). destruct ok.
      * apply spells_none. intros k u [ref2 [Q [N _]]]. try rewrite RV in Q. injection Q as <-. apply N, V. reflexivity.
      * eapply spells_one; [|reflexivity]. intros k u. split.
        -- intros [ref2 [Q [N [-> ->]]]]. try rewrite RV in Q. injection Q as <-. auto.
        -- intros [-> ->]. exists ref. split; [first [exact RV|reflexivity]|]. split; [|auto]. intro X. apply V in X. discriminate X.
    + cbn [verify_value] in H1. injection H1 as <-. apply spells_none. intros k u [ref [Q _]]. congruence.
  - eapply (spells_app p2 p3); [tauto| |].
    + eapply spells_iff; [|apply (spells_sconcat _ (fun g k u => ~ contained o (python_name g) /\ k = python_name g
         /\ u = " must be given if " +++ python_name key +++ " is in SOFA object" +++ nl))].
      * intros k u. reflexivity.
      * intros g Ig. cbv zeta. assert (X := hasattr_contained o1 g (NG g Ig)).
        unfold contained in *. rewrite RP in X. rewrite sofar_name_eq in *.
        destruct (hasattr o1 (python_name g)).
        -- apply spells_none. intros k u [N _]. apply N, X. reflexivity.
        -- eapply spells_one; [|reflexivity]. intros k u. split; [tauto|]. intros [-> ->].
           split; [|auto]. intro Y. apply X in Y. discriminate Y.
    + unfold specific_items in H2. destruct (r_specific r) as [sp|] eqn:RS.
      2:{ injection H2 as <-. injection H3 as <-. apply spells_none.
          intros k u [b [s [sp [it [kd [_ [Q _]]]]]]]. congruence. }
      destruct v as [b s|e|ar|l].
      * destruct (dep_test_case b s) as [b' DT]. rewrite DT in *. cbn [rbind] in H2. injection H2 as <-.
        eapply spells_iff; [|apply (spells_rconcat _ (fun kd => dep_lines (python_name key) (dep_case s) kd) _ _ H3)].
        -- intros k u. split.
           ++ intros [kd [J L]]. destruct (dget (dep_case s) sp) as [it|] eqn:D; [|destruct J].
              exists b, s, sp, it, kd. auto.
           ++ intros [b2 [s2 [sp2 [it [kd [Q1 [Q2 [D [J L]]]]]]]]]. injection Q1 as <- <-.
              try rewrite RS in Q2. injection Q2 as <-. exists kd. rewrite D. auto.
        -- intros kd u J F. apply (dep_text _ b'); [|exact F].
           destruct (dget (dep_case s) sp) as [it|] eqn:D; [|destruct J].
           apply dget_In in D. apply (NS sp (dep_case s) it kd); auto.
      * cbn in H2. injection H2 as <-. injection H3 as <-. apply spells_none.
        intros k u [b [s [sp2 [it [kd [Q _]]]]]]. discriminate Q.
      * cbn in H2. discriminate H2.
      * cbn in H2. injection H2 as <-. injection H3 as <-. apply spells_none.
        intros k u [b [s [sp2 [it [kd [Q _]]]]]]. discriminate Q.
Qed.

Lemma rules_text t : rules_tidy E -> rconcat (check_rule E o1 a) (rules E) = Ok t ->
  spells (rule_lines E cv o) t.
Proof.
  intros RT H.
  eapply spells_iff; [|apply (spells_rconcat _ (fun kr => one_rule (fst kr) (snd kr)) _ _ H)].
  - intros k u. split.
    + intros [[key r] [I L]]. cbn [fst snd] in L.
      destruct L as [v ref G V N|g C J N|b s sp items [kd dp] k t0 G S1 D J L].
      * eapply rl_value; eassumption.
      * eapply rl_general; eassumption.
      * destruct L as [ref Q N|v ref Q G2 N|sizes x ns tx n Q I2 S2 N]; cbn [fst snd] in *; subst dp.
        -- eapply rl_required; eassumption.
        -- eapply rl_specific; eassumption.
        -- eapply rl_size; eassumption.
    + intros [key r v ref I G V N|key r g I C J N|key r b s sp items kd ref I G S1 D J N
             |key r b s sp items kd v ref I G S1 D J G2 N|key r b s sp items kd sizes x ns tx n I G S1 D J I2 S2 N];
        exists (key, r); (split; [exact I|]); cbn [fst snd].
      * apply or_value; assumption.
      * apply or_general; assumption.
      * eapply or_dep; [exact G|exact S1|exact D|exact J|].
        apply (dl_required (python_name key) (dep_case s) (kd, DepVal ref) ref); [reflexivity|exact N].
      * eapply or_dep; [exact G|exact S1|exact D|exact J|].
        apply (dl_specific (python_name key) (dep_case s) (kd, DepVal (Some ref)) v ref); [reflexivity|exact G2|exact N].
      * eapply or_dep; [exact G|exact S1|exact D|exact J|].
        apply (dl_size (python_name key) (dep_case s) (kd, DepDims sizes) sizes x ns tx n); [reflexivity|exact I2|exact S2|exact N].
  - intros [key r] u I F. cbn [fst snd]. apply (rule_text key r u I RT F).
Qed.

Lemma units_text t : NoDup (dkeys (pub o)) -> check_units o1 = Ok t -> spells (unit_lines o) t.
Proof.
  intros ND H. unfold check_units in H. rewrite RP in H.
  eapply spells_iff; [|apply (spells_rconcat _ (fun kv k u => k = fst kv /\ unit_lines o k u) _ _ H)].
  - intros k u. split; [intros [kv [_ [_ L]]]; exact L|]. intro L. assert (L' := L).
    destruct L as [b [x [G [U _]]]]. exists (k, VStr b x). split; [|auto].
    apply filter_In. split; [apply dget_In; exact G|exact U].
  - intros [k w] u I F. apply filter_In in I. destruct I as [I U]. cbn [fst snd] in *.
    assert (G := In_dget _ _ _ ND I). destruct w as [b x|e|ar|l]; try discriminate F.
    injection F as <-. destruct (String.eqb_spec (lower x) x) as [Q|Q].
    + apply spells_none. intros k' u [-> [b2 [x2 [G2 [_ [N _]]]]]]. rewrite G in G2. injection G2 as <- <-. contradiction.
    + eapply spells_one; [|reflexivity]. intros k' u. split.
      * intros [-> [b2 [x2 [G2 [_ [N ->]]]]]]. rewrite G in G2. injection G2 as <- <-. auto.
      * intros [-> ->]. split; [reflexivity|]. exists b, x. auto.
Qed.
End Rules.
