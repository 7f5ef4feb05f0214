(** Facts about objects that differ in one entry. *)
From Verif Require Import Base PyStr PyNum NdArray Sofa Verify SpecInit SpecVerify SpecGrow BaseFacts StrFacts.
From Coq Require Import Lia.
Open Scope string_scope.
Open Scope list_scope.
Open Scope nat_scope.

Lemma filter_comm {A} (f g : A -> bool) l : filter f (filter g l) = filter g (filter f l).
Proof.
  induction l as [|x l IH]; [reflexivity|]. cbn [filter]. destruct (f x) eqn:F; destruct (g x) eqn:G; cbn [filter]; rewrite ?F, ?G, IH; reflexivity.
Qed.
Lemma map_filter {A B} (g : A -> B) (f : B -> bool) l : map g (filter (fun x => f (g x)) l) = filter f (map g l).
Proof. induction l as [|x l IH]; [reflexivity|]. cbn [filter map]. destruct (f (g x)); cbn [map]; rewrite IH; reflexivity. Qed.
Lemma dget_filter {A} k j (l : dict A) : j <> k -> dget j (filter (fun x => negb (String.eqb (fst x) k)) l) = dget j l.
Proof.
  intro N. induction l as [|[i a] l IH]; [reflexivity|]. cbn [filter fst dget]. destruct (String.eqb_spec i k) as [->|NE]; cbn [negb].
  - rewrite IH. destruct (String.eqb_spec j k) as [Q|_]; [contradiction|reflexivity].
  - cbn [dget]. rewrite IH. reflexivity.
Qed.
Lemma dget_filter_same {A} k (l : dict A) : dget k (filter (fun x => negb (String.eqb (fst x) k)) l) = None.
Proof.
  induction l as [|[i a] l IH]; [reflexivity|]. cbn [filter fst]. destruct (String.eqb_spec i k) as [->|NE]; cbn [negb]; [exact IH|].
  cbn [dget]. destruct (String.eqb_spec k i) as [->|_]; [destruct (NE eq_refl)|exact IH].
Qed.
Lemma flat_map_filter {A B} (f : B -> bool) (g : A -> list B) l : filter f (flat_map g l) = flat_map (fun x => filter f (g x)) l.
Proof. induction l as [|x l IH]; [reflexivity|]. cbn [flat_map]. rewrite filter_app, IH. reflexivity. Qed.
Lemma flat_map_skip {A B} (g : A -> list B) (p : A -> bool) l : (forall x, p x = false -> g x = []) -> flat_map g (filter p l) = flat_map g l.
Proof.
  intro H. induction l as [|x l IH]; [reflexivity|]. cbn [filter flat_map]. destruct (p x) eqn:P; cbn [flat_map]; rewrite IH; [reflexivity|].
  rewrite (H x P). reflexivity.
Qed.

Lemma exists_last_or {A} (l : list A) : l = [] \/ exists q x, l = q ++ [x].
Proof. destruct l as [|x l]; [left; reflexivity|right]. destruct (@exists_last A (x :: l)) as [q [y Q]]; [discriminate|]. exists q, y. exact Q. Qed.

(** the last statement about a letter *)
Definition about {A} (c : ascii) (x : ascii * A) : bool := Ascii.eqb (fst x) c.
Lemma last_about {A} c (n : A) L : (exists l r, L = l ++ (c, n) :: r /\ ~ In c (map fst r))
  <-> exists l, filter (about c) L = l ++ [(c, n)].
Proof.
  split.
  - intros [l [r [-> N]]]. exists (filter (about c) l). rewrite filter_app. cbn [filter]. unfold about at 2. cbn [fst].
    rewrite Ascii.eqb_refl. f_equal. f_equal. induction r as [|[d y] r IH]; [reflexivity|]. cbn [filter]. unfold about. cbn [fst].
    destruct (Ascii.eqb_spec d c) as [->|NE]; [exfalso; apply N; left; reflexivity|]. apply IH. intro I. apply N. right. exact I.
  - induction L as [|[d y] L IH]; intros [l H]; [destruct l; discriminate H|]. cbn [filter] in H. unfold about at 1 in H. cbn [fst] in H.
    destruct (Ascii.eqb_spec d c) as [->|NE].
    + destruct l as [|z l].
      * injection H as -> H. exists [], L. split; [reflexivity|]. intro I. apply in_map_iff in I. destruct I as [[d z] [<- I]].
        assert (X : In (d, z) (filter (about d) L)) by (apply filter_In; split; [exact I|unfold about; cbn; apply Ascii.eqb_refl]).
        cbn [fst] in H. rewrite H in X. destruct X.
      * injection H as _ H. destruct (IH (ex_intro _ l H)) as [l' [r [-> N]]]. exists ((c, y) :: l'), r. auto.
    + destruct (IH (ex_intro _ l H)) as [l' [r [-> N]]]. exists ((d, y) :: l'), r. auto.
Qed.

Lemma global_prefix k a r : k +++ "_" +++ a = "GLOBAL_" +++ r -> startswith "GLOBAL" k = true.
Proof.
  change ("_" +++ a) with (String "_" a).
  destruct k as [|c1 k]; [discriminate|]. cbn [append]. intro H. injection H as -> H.
  destruct k as [|c2 k]; [discriminate H|]. injection H as -> H.
  destruct k as [|c3 k]; [discriminate H|]. injection H as -> H.
  destruct k as [|c4 k]; [discriminate H|]. injection H as -> H.
  destruct k as [|c5 k]; [discriminate H|]. injection H as -> H.
  destruct k as [|c6 k]; [discriminate H|]. injection H as -> H.
  destruct k; reflexivity.
Qed.
Lemma longer k a : k +++ "_" +++ a <> k.
Proof.
  intro H. assert (L : String.length (k +++ "_" +++ a) = String.length k) by (rewrite H; reflexivity).
  revert L. clear H. induction k as [|c k IH]; cbn; [discriminate|]. intro L. injection L as L. exact (IH L).
Qed.
Lemma startswith_split p k : startswith p k = true -> exists r, k = p +++ r.
Proof.
  revert k. induction p as [|c p IH]; intros k H; [exists k; reflexivity|].
  destruct k as [|d k]; [discriminate H|]. unfold startswith in H. cbn [String.prefix] in H.
  destruct (ascii_dec c d) as [->|]; [|discriminate H]. destruct (IH k H) as [r ->]. exists r. reflexivity.
Qed.

Section Without.
Variables (cv : convention) (k : string) (e : entry) (w : value) (o' o : sofa).
Hypothesis WO : without cv k e w o' o.
Let P := wo_pub _ _ _ _ _ _ WO.
Let C := wo_own _ _ _ _ _ _ WO.

Lemma wo_get j : j <> k -> dget j (pub o) = dget j (pub o').
Proof. intro N. rewrite P. apply dget_filter. exact N. Qed.
Lemma wo_absent : dget k (pub o) = None.
Proof. rewrite P. apply dget_filter_same. Qed.
Lemma wo_gone : ~ contained o k.
Proof. unfold contained. apply dget_None. exact wo_absent. Qed.
Lemma wo_there : contained o' k.
Proof. apply dget_Some_In. exists w. apply (wo_value _ _ _ _ _ _ WO). Qed.
Lemma wo_contained j : contained o j <-> contained o' j /\ j <> k.
Proof.
  destruct (String.eqb_spec j k) as [->|N].
  - split; [intro H; destruct (wo_gone H)|intros [_ H]; congruence].
  - unfold contained. rewrite <- !dget_Some_In, wo_get by exact N. tauto.
Qed.
Lemma wo_neq j x : dget j (pub o) = Some x -> j <> k.
Proof. intros H ->. rewrite wo_absent in H. discriminate H. Qed.
Lemma wo_declared j : j <> k -> declared cv o j = declared cv o' j.
Proof. intro N. unfold declared. destruct (dget j cv); [reflexivity|]. rewrite C. apply dget_filter. exact N. Qed.
Lemma wo_declared_k : declared cv o k = dget k cv.
Proof. unfold declared. destruct (dget k cv) as [x|] eqn:G; [reflexivity|]. rewrite C. apply dget_filter_same. Qed.
Lemma wo_declared_keep : forall j x, declared cv o j = Some x -> declared cv o' j = Some x.
Proof.
  intros j x. destruct (String.eqb_spec j k) as [->|N]; [|rewrite wo_declared by exact N; trivial].
  rewrite wo_declared_k. intro H. unfold declared. rewrite H. reflexivity.
Qed.

Lemma wo_variables : variables cv o = filter (fun j => negb (String.eqb j k)) (variables cv o').
Proof.
  unfold variables. rewrite filter_app. f_equal.
  - unfold dkeys. rewrite P, (map_filter fst (fun j => negb (String.eqb j k))).
    induction (map fst (pub o')) as [|j l IH]; [reflexivity|]. cbn [filter].
    destruct (String.eqb_spec j k) as [->|N]; cbn [negb].
    + destruct (match declared cv o' k with Some _ => _ | None => _ end); cbn [filter]; rewrite ?eqb_refl_s; exact IH.
    + cbn [filter]. rewrite (wo_declared j N). destruct (match declared cv o' j with Some _ => _ | None => _ end); cbn [filter]; [|exact IH].
      destruct (String.eqb_spec j k) as [Q|_]; [contradiction|]. cbn [negb]. f_equal. exact IH.
  - rewrite C, filter_comm, (map_filter fst (fun j => negb (String.eqb j k))). apply filter_comm.
Qed.
Lemma wo_variable j : In j (variables cv o) <-> In j (variables cv o') /\ j <> k.
Proof.
  rewrite wo_variables, filter_In. split; intros [H1 H2]; (split; [exact H1|]).
  - intros ->. rewrite eqb_refl_s in H2. discriminate H2.
  - rewrite (eqb_neq_s _ _ H2). reflexivity.
Qed.
Lemma wo_states j : j <> k -> states cv o j = states cv o' j.
Proof. intro N. unfold states. rewrite wo_declared, wo_get by exact N. reflexivity. Qed.
Lemma wo_states_k : states cv o k = [].
Proof. unfold states. rewrite wo_absent. destruct (declared cv o k); reflexivity. Qed.

Lemma wo_about c : ~ In c (map fst (states cv o' k)) ->
  filter (about c) (all_states cv o) = filter (about c) (all_states cv o').
Proof.
  intro N. unfold all_states. rewrite !flat_map_filter, wo_variables.
  rewrite <- (flat_map_skip (fun j => filter (about c) (states cv o' j)) (fun j => negb (String.eqb j k)) (variables cv o')).
  - induction (variables cv o') as [|j l IH]; [reflexivity|]. cbn [filter]. destruct (String.eqb_spec j k) as [->|NE]; cbn [negb]; [exact IH|].
    cbn [flat_map]. rewrite IH, (wo_states j NE). reflexivity.
  - intros j H. apply negb_false_iff in H. apply String.eqb_eq in H. subst j.
    induction (states cv o' k) as [|[d y] l IH]; [reflexivity|]. cbn [filter]. unfold about at 1. cbn [fst].
    destruct (Ascii.eqb_spec d c) as [->|NE]; [exfalso; apply N; left; reflexivity|]. apply IH. intro I. apply N. right. exact I.
Qed.

Lemma wo_string_variable j : string_variable cv o j <-> string_variable cv o' j /\ j <> k.
Proof.
  unfold string_variable. rewrite wo_variable. split.
  - intros [[V N] [x [d [D R]]]]. rewrite wo_declared in D by exact N. eauto 8.
  - intros [[V [x [d [D R]]]] N]. rewrite wo_declared by exact N. eauto 8.
Qed.
Lemma wo_longest n : ~ string_variable cv o' k -> (longest cv o n <-> longest cv o' n).
Proof.
  intro NS. assert (SV : forall j, string_variable cv o j <-> string_variable cv o' j).
  { intro j. rewrite wo_string_variable. split; [tauto|]. intro H. split; [exact H|]. intros ->. contradiction. }
  assert (G : forall j v, string_variable cv o' j -> (dget j (pub o) = Some v <-> dget j (pub o') = Some v)).
  { intros j v H. rewrite wo_get; [reflexivity|]. intros ->. contradiction. }
  unfold longest. split; intros [L1 L2]; split.
  - intros j v s ls l H V. apply (L1 j v s ls l (proj2 (SV j) H)). apply (G j v H). exact V.
  - destruct L2 as [L2|[j [v [s [ls [H [V R]]]]]]]; [left; exact L2|right]. exists j, v, s, ls. apply SV in H. split; [exact H|].
    split; [apply (G j v H); exact V|exact R].
  - intros j v s ls l H V. apply SV in H. apply (L1 j v s ls l H). apply (G j v H). exact V.
  - destruct L2 as [L2|[j [v [s [ls [H [V R]]]]]]]; [left; exact L2|right]. exists j, v, s, ls. split; [apply SV; exact H|].
    split; [apply (G j v H); exact V|exact R].
Qed.

(** sizes that are not stated by [k] and do not depend on its texts *)
Lemma wo_size x n : (x = "S" -> ~ string_variable cv o' k) ->
  (forall c, x = str1 c -> has_char c "CIS" = false -> ~ In c (map fst (states cv o' k))) ->
  (size cv o x n <-> size cv o' x n).
Proof.
  intros HS HC. unfold size. split; intros [H|[H|[[H1 H2]|[c [l [r [H1 [H2 [H3 H4]]]]]]]]]; auto.
  - right. right. left. split; [exact H1|]. apply wo_longest; auto.
  - right. right. right. exists c. assert (X : exists l, filter (about c) (all_states cv o) = l ++ [(c, Some n)]) by (apply last_about; eauto).
    rewrite wo_about in X by auto. apply last_about in X. destruct X as [l' [r' [X1 X2]]]. eauto 8.
  - right. right. left. split; [exact H1|]. apply wo_longest; auto.
  - right. right. right. exists c. assert (X : exists l, filter (about c) (all_states cv o') = l ++ [(c, Some n)]) by (apply last_about; eauto).
    rewrite <- wo_about in X by auto. apply last_about in X. destruct X as [l' [r' [X1 X2]]]. eauto 8.
Qed.

Lemma last_of {B} (g : string -> list B) l : forall r x, flat_map g l = r ++ [x] ->
  In x (g k) \/ exists r', flat_map g (filter (fun j => negb (String.eqb j k)) l) = r' ++ [x].
Proof.
  induction l as [|j l IH] using rev_ind; intros r x H; [destruct r; discriminate H|].
  rewrite flat_map_app in H. cbn [flat_map] in H. rewrite app_nil_r in H. rewrite filter_app. cbn [filter].
  destruct (exists_last_or (g j)) as [Q|[q [y Q]]].
  - rewrite Q, app_nil_r in H. destruct (IH r x H) as [I|[r' I]]; [left; exact I|right]. exists r'. rewrite flat_map_app, I.
    destruct (negb (String.eqb j k)); cbn [flat_map]; rewrite ?Q; cbn [app]; apply app_nil_r.
  - rewrite Q, app_assoc in H. apply app_inj_tail in H. destruct H as [_ <-].
    destruct (String.eqb_spec j k) as [->|N]; [left; rewrite Q; apply in_or_app; right; left; reflexivity|right].
    cbn [negb]. rewrite flat_map_app. cbn [flat_map]. rewrite app_nil_r, Q, app_assoc. eauto.
Qed.

Lemma size_agrees x n : agrees cv k o' o -> (x = "S" -> ~ string_variable cv o' k) -> size cv o x n -> size cv o' x n.
Proof.
  intros AG HS H. assert (H0 := H). destruct H as [H|[H|[[H1 H2]|[c [l [r [H1 [H2 [H3 H4]]]]]]]]].
  - left. exact H.
  - right. left. exact H.
  - right. right. left. split; [exact H1|]. apply wo_longest; auto.
  - right. right. right. exists c. subst x.
    assert (L : exists l, filter (about c) (all_states cv o) = l ++ [(c, Some n)]) by (apply last_about; eauto).
    destruct L as [l0 L].
    assert (M : filter (about c) (all_states cv o)
      = flat_map (fun j => filter (about c) (states cv o' j)) (filter (fun j => negb (String.eqb j k)) (variables cv o'))).
    { unfold all_states. rewrite flat_map_filter, wo_variables.
      induction (variables cv o') as [|j vs IH]; [reflexivity|]. cbn [filter]. destruct (String.eqb_spec j k) as [->|NE]; cbn [negb]; [exact IH|].
      cbn [flat_map]. rewrite IH, (wo_states j NE). reflexivity. }
    assert (X : exists l, filter (about c) (all_states cv o') = l ++ [(c, Some n)]).
    { destruct (exists_last_or (filter (about c) (all_states cv o'))) as [Q|[q [y Q]]].
      - exfalso. assert (I : In (c, Some n) (filter (about c) (all_states cv o))) by (rewrite L; apply in_or_app; right; left; reflexivity).
        rewrite M in I. apply in_flat_map in I. destruct I as [j [J I]]. apply filter_In in J. destruct J as [J _].
        assert (K : In (c, Some n) (filter (about c) (all_states cv o'))).
        { unfold all_states. rewrite flat_map_filter. apply in_flat_map. eauto. }
        rewrite Q in K. destruct K.
      - exists q. rewrite Q. do 2 f_equal. assert (Q' := Q). unfold all_states in Q'. rewrite flat_map_filter in Q'.
        destruct (last_of _ _ _ _ Q') as [I|[r' I]].
        + apply filter_In in I. destruct I as [I A]. destruct y as [d a]. unfold about in A. cbn [fst] in A. apply Ascii.eqb_eq in A. subst d.
          f_equal. exact (AG c a n I H2 H0).
        + rewrite <- M, L in I. apply app_inj_tail in I. symmetry. apply I. }
    apply last_about in X. destruct X as [l' [r' [X1 X2]]]. eauto 8.
Qed.

Lemma letter_det a c n n' : has_char c "CIS" = false -> size cv a (str1 c) n -> size cv a (str1 c) n' -> n = n'.
Proof.
  intros NC. assert (F : forall n, size cv a (str1 c) n -> exists l, filter (about c) (all_states cv a) = l ++ [(c, Some n)]).
  { intros n0 [[Q _]|[[Q _]|[[Q _]|[c0 [l [r [Q [_ H]]]]]]]].
    - injection Q as ->. discriminate NC.
    - injection Q as ->. discriminate NC.
    - injection Q as ->. discriminate NC.
    - injection Q as <-. apply last_about. eauto. }
  intros H1 H2. destruct (F n H1) as [l1 L1]. destruct (F n' H2) as [l2 L2]. rewrite L1 in L2. apply app_inj_tail in L2.
  destruct L2 as [_ Q]. injection Q as Q. exact Q.
Qed.

(** sizes that can do without [k] *)
Lemma size_down x n : agrees cv k o' o -> (x = "S" -> ~ string_variable cv o' k) ->
  (forall c, x = str1 c -> has_char c "CIS" = false -> In c (map fst (states cv o' k)) -> exists n, size cv o x n) ->
  size cv o' x n -> size cv o x n.
Proof.
  intros AG HS HC H. destruct H as [H|[H|[[H1 H2]|[c [l [r [H1 [H2 [H3 H4]]]]]]]]].
  - left. exact H.
  - right. left. exact H.
  - right. right. left. split; [exact H1|]. apply wo_longest; auto.
  - assert (H : size cv o' x n) by (right; right; right; eauto 8). subst x.
    destruct (in_dec ascii_dec c (map fst (states cv o' k))) as [I|I].
    + destruct (HC c eq_refl H2 I) as [n0 N0]. assert (n0 = n); [|subst n0; exact N0].
      apply (letter_det o' c n0 n H2); [apply size_agrees; assumption|exact H].
    + apply wo_size; [exact HS| |exact H]. intros c' Q _ J. injection Q as <-. exact (I J).
Qed.

Lemma upper_S' x : str1 (upper_char x) = "S" -> x <> "S"%char -> x = "s"%char.
Proof. intro H. injection H as H. revert H. destruct x as [[] [] [] [] [] [] [] []]; vm_compute; intros H N; try reflexivity; try discriminate H. destruct (N eq_refl). Qed.

Lemma extent_up x n : agrees cv k o' o -> (string_variable cv o' k -> x <> "s"%char) -> extent cv o x n -> extent cv o' x n.
Proof.
  intros AG HS. unfold extent. destruct (Ascii.eqb_spec x "S") as [->|N]; [trivial|]. apply size_agrees; [exact AG|].
  intros Q SV. apply (HS SV). apply upper_S'; assumption.
Qed.
Lemma extent_down x n : agrees cv k o' o ->
  (forall c, In c (map fst (states cv o' k)) -> has_char c "CIS" = false -> upper_char x = c -> exists n, size cv o (str1 c) n) ->
  (string_variable cv o' k -> x <> "s"%char) -> extent cv o' x n -> extent cv o x n.
Proof.
  intros AG UL HS. unfold extent. destruct (Ascii.eqb_spec x "S") as [->|N]; [trivial|]. apply size_down; [exact AG| |].
  - intros Q SV. apply (HS SV). apply upper_S'; assumption.
  - intros c Q CI I. injection Q as Q. rewrite Q. exact (UL c I CI Q).
Qed.

Lemma nth_has x i alt : nth_error (chars alt) i = Some x -> has_char x alt = true.
Proof.
  revert i. induction alt as [|c alt IH]; intros i H; [destruct i; discriminate H|]. cbn [has_char].
  destruct i as [|i]; cbn [chars nth_error] in H.
  - injection H as <-. rewrite Ascii.eqb_refl. reflexivity.
  - rewrite (IH i H). apply orb_true_r.
Qed.

Section Valid.
Variables (E : env) (m : vmode) (c v : string).
Hypothesis LF : string_variable cv o' k -> lengths_free E cv o'.

Lemma shape_transfer (a b : sofa) j : (forall ea d alt x, declared cv a j = Some ea -> e_dims ea = Some d -> In alt (alternatives d) ->
    has_char x alt = true -> forall n, extent cv a x n -> extent cv b x n) ->
  declared cv b j = declared cv a j -> dget j (pub b) = dget j (pub a) -> shape_ok cv a j -> shape_ok cv b j.
Proof.
  intros EX D G [e1 [d [v1 [s [pre [alt [post [H1 [H2 [H3 [H4 [H5 [H6 H7]]]]]]]]]]]]].
  assert (IN : forall y, In y (pre ++ [alt]) -> In y (alternatives d)).
  { intros y I. rewrite H5. apply in_or_app. apply in_app_or in I. destruct I as [I|[<-|[]]]; [left; exact I|right; left; reflexivity]. }
  exists e1, d, v1, s, pre, alt, post. rewrite D, G. split; [exact H1|]. split; [exact H2|]. split; [exact H3|]. split; [exact H4|].
  split; [exact H5|]. split.
  - intros y Y x X. destruct (H6 y Y x X) as [n N]. exists n.
    refine (EX e1 d y x H1 H2 (IN y _) X n N). apply in_or_app. left. exact Y.
  - intros i x X. apply (EX e1 d alt x H1 H2); [apply IN; apply in_or_app; right; left; reflexivity|exact (nth_has x i alt X)|exact (H7 i x X)].
Qed.

Lemma s_letter j ea d alt x : string_variable cv o' k -> declared cv o' j = Some ea -> e_dims ea = Some d -> In alt (alternatives d) ->
  has_char x alt = true -> x <> "s"%char.
Proof. intros SV D ED I X ->. destruct (LF SV) as [L _]. rewrite (L j ea d alt D ED I) in X. discriminate X. Qed.

Lemma shape_up j : j <> k -> agrees cv k o' o -> shape_ok cv o j -> shape_ok cv o' j.
Proof.
  intros N OL. apply shape_transfer; [|symmetry; apply wo_declared; exact N|symmetry; apply wo_get; exact N].
  intros ea d alt x D ED I X n. apply extent_up; [exact OL|]. intro SV. rewrite (wo_declared j N) in D. exact (s_letter j ea d alt x SV D ED I X).
Qed.
Lemma shape_down j : In j (variables cv o') -> j <> k -> dispensable E cv k o' o -> shape_ok cv o' j -> shape_ok cv o j.
Proof.
  intros V N UL. apply shape_transfer; [|apply wo_declared; exact N|apply wo_get; exact N].
  intros ea d alt x D ED I X n. apply extent_down; [apply UL| |].
  - intros c0 CI NC Q. destruct (proj2 UL c0 CI NC) as [[U _]|U]; [|exact U]. destruct (U j ea d alt x N V D ED I X Q).
  - intro SV. exact (s_letter j ea d alt x SV D ED I X).
Qed.

Lemma allowed_up key ref : allowed_value E o key ref -> allowed_value E o' key ref.
Proof. intros [b [s [G A]]]. exists b, s. split; [|exact A]. rewrite <- wo_get; [exact G|]. exact (wo_neq _ _ G). Qed.
Lemma allowed_down key ref : key <> k -> allowed_value E o' key ref -> allowed_value E o key ref.
Proof. intros N [b [s [G A]]]. exists b, s. split; [|exact A]. rewrite wo_get; [exact G|exact N]. Qed.

Lemma rule_up j r : In (j, r) (rules E) -> agrees cv k o' o -> python_name j <> k ->
  rule_ok E cv o (python_name j) r -> rule_ok E cv o' (python_name j) r.
Proof.
  intros IN OL N H x G. rewrite <- wo_get in G by exact N. destruct (H x G) as [R1 [R2 R3]]. split; [|split].
  - intros ref Q. apply allowed_up. exact (R1 ref Q).
  - intros g Q. apply (wo_contained _). exact (R2 g Q).
  - intros sp Q. destruct (R3 sp Q) as [S1 S2]. split; [exact S1|]. intros b s items [d kd] V D I.
    specialize (S2 b s items (d, kd) V D I). unfold dep_ok in *. cbn [fst snd] in *. destruct kd as [l|[ref|]].
    + intros y ns t L. destruct (S2 y ns t L) as [n [N1 N2]]. exists n. split; [|exact N2]. apply size_agrees; [exact OL| |exact N1].
      intros -> SV. destruct (LF SV) as [_ L2]. apply (L2 j r sp (dep_case s) items d l IN Q (dget_In _ _ _ D) I).
      apply (in_map fst) in L. exact L.
    + apply allowed_up. exact S2.
    + apply (wo_contained _). exact S2.
Qed.

Lemma rule_down j r : In (j, r) (rules E) -> dispensable E cv k o' o -> (forall i, ~ requires E o' k i) -> python_name j <> k ->
  rule_ok E cv o' (python_name j) r -> rule_ok E cv o (python_name j) r.
Proof.
  intros IN UL RQ N H x G. rewrite wo_get in G by exact N. destruct (H x G) as [R1 [R2 R3]]. split; [|split].
  - intros ref Q. apply allowed_down; [exact N|]. exact (R1 ref Q).
  - intros g Q. apply wo_contained. split; [exact (R2 g Q)|]. intro K. exact (RQ j (req_general E o' k j r g x IN N G Q K)).
  - intros sp Q. destruct (R3 sp Q) as [S1 S2]. split; [exact S1|]. intros b s items [d kd] V D I.
    specialize (S2 b s items (d, kd) V D I). subst x.
    assert (NK : forall ref, kd = DepVal ref -> python_name d <> k).
    { intros ref -> K. exact (RQ j (req_specific E o' k j r sp b s items d ref IN N G Q D I K)). }
    unfold dep_ok in *. cbn [fst snd] in *. destruct kd as [l|[ref|]].
    + intros y ns t L. destruct (S2 y ns t L) as [n [N1 N2]]. exists n. split; [|exact N2].
      assert (IY : In y (map fst l)) by (apply (in_map fst) in L; exact L). revert N1. apply size_down; [apply UL| |].
      * intros -> SV. destruct (LF SV) as [_ L2]. exact (L2 j r sp (dep_case s) items d l IN Q (dget_In _ _ _ D) I IY).
      * intros c0 -> NC CI. destruct (proj2 UL c0 CI NC) as [[_ U]|U]; [|exact U]. destruct (U j r sp (dep_case s) items d l IN Q (dget_In _ _ _ D) I IY).
    + apply allowed_down; [exact (NK _ eq_refl)|]. exact S2.
    + apply wo_contained. split; [exact S2|exact (NK _ eq_refl)].
Qed.

Lemma name_up j t : name_ok (declared cv o) j t -> name_ok (declared cv o') j t.
Proof.
  intros [N1 [N2 N3]]. split; [|split; [exact N2|exact N3]]. intro T. destruct (N1 T) as [var [a [Q1 [Q2 Q3]]]].
  exists var, a. split; [exact Q1|]. split; [exact Q2|]. destruct Q3 as [D|D]; [left|right; exact D].
  destruct (declared cv o var) as [x|] eqn:DV; [|congruence]. rewrite (wo_declared_keep var x DV). discriminate.
Qed.

Hypothesis DO : dicts_ok o'.
Lemma own_nodup : NoDup (dkeys (own_custom cv o')).
Proof.
  destruct DO as [_ D]. unfold own_custom. destruct (custom o') as [cu|]; [|constructor]. unfold dkeys in *.
  rewrite (map_filter fst (fun j => negb (dmem j cv))). apply NoDup_filter. exact D.
Qed.
Lemma own_In j x : dget j (own_custom cv o') = Some x -> dget j cv = None.
Proof.
  intro H. apply dget_In in H. unfold own_custom in H. destruct (custom o') as [cu|]; [|destruct H].
  apply filter_In in H. destruct H as [_ H]. apply negb_true_iff in H. apply dmem_false in H. apply dget_None. exact H.
Qed.
Lemma var_k : In k (variables cv o') <-> e_dims e <> None.
Proof.
  unfold variables. rewrite in_app_iff. assert (WE := wo_entry _ _ _ _ _ _ WO). assert (T := wo_there). unfold contained in T.
  rewrite filter_In. split.
  - intros [[_ H]|H].
    + rewrite WE in H. destruct (e_dims e); [discriminate|discriminate H].
    + apply filter_In in H. destruct H as [H _]. apply in_map_iff in H. destruct H as [[k' x] [Q H]]. cbn [fst] in Q. subst k'.
      apply filter_In in H. destruct H as [H H2]. cbn [snd] in H2. apply (In_dget _ _ _ own_nodup) in H.
      assert (x = e) by (unfold declared in WE; rewrite (own_In k x H) in WE; congruence). subst x.
      destruct (e_dims e); [discriminate|discriminate H2].
  - intro H. left. split; [exact T|]. rewrite WE. destruct (e_dims e); [reflexivity|congruence].
Qed.

Lemma own_other j : In j (dkeys (own_custom cv o')) -> j <> k -> In j (dkeys (own_custom cv o)).
Proof. intros H N. apply dget_Some_In. apply dget_Some_In in H. destruct H as [x H]. exists x. rewrite C, dget_filter; assumption. Qed.
Lemma own_keep j : In j (dkeys (own_custom cv o)) -> In j (dkeys (own_custom cv o')).
Proof.
  rewrite C. unfold dkeys. intro H. apply in_map_iff in H. destruct H as [x [<- H]]. apply filter_In in H. apply in_map. apply H.
Qed.
Lemma own_k : dget k cv = None -> In k (dkeys (own_custom cv o')).
Proof. intro H. assert (WE := wo_entry _ _ _ _ _ _ WO). unfold declared in WE. rewrite H in WE. apply dget_Some_In. eauto. Qed.

Lemma states_split x n : In (x, n) (all_states cv o') -> In (x, n) (all_states cv o) \/ In (x, n) (states cv o' k).
Proof.
  intro H. apply in_flat_map in H. destruct H as [j [V H]]. destruct (String.eqb_spec j k) as [->|N]; [right; exact H|left].
  apply in_flat_map. exists j. split; [apply wo_variable; auto|]. rewrite wo_states by exact N. exact H.
Qed.
Lemma states_of_k x n : In (x, n) (states cv o' k) -> In (x, n) (all_states cv o').
Proof.
  intro H. apply in_flat_map. exists k. split; [|exact H]. apply var_k. intro Q. unfold states in H.
  rewrite (wo_entry _ _ _ _ _ _ WO), (wo_value _ _ _ _ _ _ WO), Q in H. destruct H.
Qed.

(** the entry [k] comes in *)
Lemma grow_valid : valid_for E m o c v cv -> agrees cv k o' o ->
  (custom o' <> None -> custom o = None ->
     (exists b, dget "GLOBAL_SOFAConventionsVersion" (pub o) = Some (VStr b v)) /\ is_ok (snd (sofa_init E c false v VAuto)) = true) ->
  (valid_for E m o' c v cv <-> entry_valid E m cv o' k e w).
Proof.
  intros [V1 V2 V3 V4 V5 V6 V7 [V8a [V8b V8c]] V9 V10 V11 V12] OL HC.
  assert (WE := wo_entry _ _ _ _ _ _ WO). assert (WV := wo_value _ _ _ _ _ _ WO). split.
  - intros [X1 X2 X3 X4 X5 X6 X7 [X8a [X8b X8c]] X9 X10 X11 X12]. split.
    + destruct (X5 k w WV) as [e' [D T]]. rewrite WE in D. injection D as <-. exact T.
    + apply X6; [exact wo_there|exact WE].
    + intros NK n I. destruct X7 as [X7|[_ [_ X7]]]; [|apply X7; [apply own_k; exact NK|exact I]].
      assert (Q := own_k NK). unfold own_custom in Q. rewrite X7 in Q. destruct Q.
    + intros x n I. apply (X8b x n). apply states_of_k. exact I.
    + intro SV. destruct (X8c k SV) as [w' [s [ls [G S]]]]. rewrite WV in G. injection G as <-. eauto.
    + intro D. apply X9. apply var_k. exact D.
    + intros j r I <-. apply X10. exact I.
    + intros M U. exact (X11 M k w WV U).
  - intros [T N CL AX ST SH RU UN]. split.
    + destruct V1 as [b B]. exists b. rewrite <- wo_get; [exact B|exact (wo_neq _ _ B)].
    + destruct V2 as [u [U1 U2]]. exists u. split; [|exact U2]. rewrite <- wo_get; [exact U1|exact (wo_neq _ _ U1)].
    + exact V3.
    + intros j x D M. destruct (String.eqb_spec j k) as [->|NE]; [exact wo_there|].
      rewrite <- (wo_declared j NE) in D. apply (wo_contained j). exact (V4 j x D M).
    + intros j x G. destruct (String.eqb_spec j k) as [->|NE].
      * rewrite WV in G. injection G as <-. eauto.
      * rewrite <- wo_get in G by exact NE. destruct (V5 j x G) as [e' [D H]]. rewrite (wo_declared j NE) in D. eauto.
    + intros j x I D. destruct (String.eqb_spec j k) as [->|NE].
      * rewrite WE in D. injection D as <-. exact N.
      * rewrite <- (wo_declared j NE) in D. apply name_up. apply (V6 j x); [apply wo_contained; auto|exact D].
    + unfold no_clash. destruct (custom o') as [cu|] eqn:CU; [right|left; reflexivity].
      assert (X : (exists b, dget "GLOBAL_SOFAConventionsVersion" (pub o) = Some (VStr b v)) /\ is_ok (snd (sofa_init E c false v VAuto)) = true).
      { destruct V7 as [V7|[A [B _]]]; [apply HC; [discriminate|exact V7]|auto]. }
      destruct X as [[b B] I]. split; [exists b; rewrite <- wo_get; [exact B|exact (wo_neq _ _ B)]|]. split; [exact I|].
      intros j n J. destruct (String.eqb_spec j k) as [->|NE].
      * intro IN. apply CL; [|exact IN]. apply dget_Some_In in J. destruct J as [x J]. exact (own_In k x J).
      * intro IN. destruct V7 as [V7|[_ [_ V7]]]; [|apply V7; [apply own_other; assumption|exact IN]].
        assert (Q := own_other j J NE). unfold own_custom in Q. rewrite V7 in Q. destruct Q.
    + split; [|split].
      * intros j J. destruct (String.eqb_spec j k) as [->|NE]; [exact wo_there|]. apply (wo_contained j). apply V8a. apply wo_variable. auto.
      * intros x n I. apply states_split in I. destruct I as [I|I]; [exact (V8b x n I)|exact (AX x n I)].
      * intros j SV. destruct (String.eqb_spec j k) as [->|NE]; [destruct (ST SV) as [s [ls S]]; eauto|].
        destruct (V8c j) as [x [s [ls [G S]]]]; [apply wo_string_variable; auto|]. rewrite wo_get in G by exact NE. eauto.
    + intros j J. destruct (String.eqb_spec j k) as [->|NE]; [apply SH; apply var_k; exact J|].
      apply shape_up; [exact NE|exact OL|]. apply V9. apply wo_variable. auto.
    + intros j r I. destruct (String.eqb_spec (python_name j) k) as [Q|NE]; [rewrite Q; exact (RU j r I Q)|].
      apply rule_up; [exact I|exact OL|exact NE|]. apply V10. exact I.
    + intros M j x G U. destruct (String.eqb_spec j k) as [->|NE]; [rewrite WV in G; injection G as <-; exact (UN M U)|].
      rewrite <- wo_get in G by exact NE. exact (V11 M j x G U).
    + exact V12.
Qed.

(** the entry [k] goes away *)
Lemma shrink_valid : valid_for E m o' c v cv -> dispensable E cv k o' o ->
  k <> "GLOBAL_SOFAConventions" \/ ~ spare E cv o' k e ->
  k <> "GLOBAL_SOFAConventionsVersion" \/ ~ spare E cv o' k e ->
  (custom o' = None -> custom o = None) ->
  (valid_for E m o c v cv <-> spare E cv o' k e).
Proof.
  intros [X1 X2 X3 X4 X5 X6 X7 [X8a [X8b X8c]] X9 X10 X11 X12] UL K1 K2 HC.
  assert (WE := wo_entry _ _ _ _ _ _ WO). assert (WV := wo_value _ _ _ _ _ _ WO). split.
  - intros [V1 V2 V3 V4 V5 V6 V7 V8 V9 V10 V11 V12]. split.
    + intro KC. destruct (is_mandatory (e_flags e)) eqn:M; [exfalso|reflexivity].
      apply wo_gone. apply (V4 k e); [|exact M]. rewrite wo_declared_k. unfold declared in WE. destruct (dget k cv); congruence.
    + intros NK NG a x I NA D T. assert (NE : k +++ "_" +++ a <> k) by (apply longer).
      rewrite <- (wo_declared _ NE) in D. destruct (V6 (k +++ "_" +++ a) x) as [N1 _]; [apply wo_contained; auto|exact D|].
      destruct (N1 T) as [var [a' [Q1 [Q2 Q3]]]]. destruct Q3 as [Q3|[r Q3]].
      * apply Q3. assert (B : before_last "_" (k +++ String "_" a) = before_last "_" (var +++ String "_" a')) by (f_equal; exact Q1).
        rewrite !before_last_app in B by assumption. injection B as <-. rewrite wo_declared_k. exact NK.
      * rewrite (global_prefix k a r Q3) in NG. discriminate NG.
    + intros j [r g x I N G Q K|r sp b s items d ref I N G Q D IT K].
      * rewrite <- wo_get in G by exact N. destruct (V10 j r I x G) as [_ [R _]]. specialize (R g Q). rewrite K in R. exact (wo_gone R).
      * rewrite <- wo_get in G by exact N. destruct (V10 j r I _ G) as [_ [_ R]]. destruct (R sp Q) as [_ R2].
        specialize (R2 b s items (d, DepVal ref) eq_refl D IT). unfold dep_ok in R2. cbn [fst snd] in R2. rewrite K in R2.
        destruct ref as [ref|]; [|exact (wo_gone R2)]. destruct R2 as [b' [s' [G' _]]]. rewrite wo_absent in G'. discriminate G'.
  - intros SP. destruct SP as [OP BA RQ]. assert (SP : spare E cv o' k e) by (split; assumption).
    destruct K1 as [K1|K1]; [|destruct (K1 SP)]. destruct K2 as [K2|K2]; [|destruct (K2 SP)]. split.
    + destruct X1 as [b B]. exists b. rewrite wo_get; [exact B|]. intro Q. apply K1. symmetry. exact Q.
    + destruct X2 as [u [U1 U2]]. exists u. split; [|exact U2]. rewrite wo_get; [exact U1|]. intro Q. apply K2. symmetry. exact Q.
    + exact X3.
    + intros j x D M. apply wo_contained. assert (NE : j <> k).
      { intros ->. rewrite wo_declared_k in D. assert (x = e) by (unfold declared in WE; rewrite D in WE; congruence). subst x.
        rewrite OP in M; [discriminate M|congruence]. }
      split; [|exact NE]. rewrite (wo_declared j NE) in D. exact (X4 j x D M).
    + intros j x G. assert (NE := wo_neq _ _ G). rewrite wo_get in G by exact NE. rewrite (wo_declared j NE). exact (X5 j x G).
    + intros j x I D. apply wo_contained in I. destruct I as [I NE]. rewrite (wo_declared j NE) in D.
      destruct (X6 j x I D) as [N1 [N2 N3]]. split; [|split; [exact N2|exact N3]]. intro T.
      destruct (N1 T) as [var [a [Q1 [Q2 Q3]]]]. exists var, a. split; [exact Q1|]. split; [exact Q2|].
      destruct Q3 as [Q3|Q3]; [|right; exact Q3]. destruct (String.eqb_spec var k) as [->|NV]; [|left; rewrite (wo_declared var NV); exact Q3].
      destruct (dget k cv) as [y|] eqn:KC; [left; rewrite wo_declared_k, KC; discriminate|]. right.
      destruct (startswith "GLOBAL" k) eqn:SG.
      * destruct (X6 k e wo_there WE) as [_ [_ [_ [_ N4]]]]. destruct (startswith_split _ _ SG) as [r R].
        destruct (N4 r R) as [_ [s ->]]. exists (s +++ "_" +++ a). rewrite Q1, R. rewrite !sapp_assoc. reflexivity.
      * exfalso. rewrite Q1 in I, D. apply (BA eq_refl eq_refl a x I Q2 D T).
    + destruct X7 as [X7|[[b B] [I X7]]]; [left; exact (HC X7)|right]. split; [exists b; rewrite wo_get; [exact B|]; intro Q; apply K2; symmetry; exact Q|].
      split; [exact I|]. intros j n J. apply X7. apply own_keep. exact J.
    + split; [|split].
      * intros j J. apply wo_variable in J. destruct J as [J NE]. apply wo_contained. auto.
      * intros x n I. apply in_flat_map in I. destruct I as [j [V I]]. apply wo_variable in V. destruct V as [V NE].
        rewrite wo_states in I by exact NE. apply (X8b x n). apply in_flat_map. eauto.
      * intros j SV. apply wo_string_variable in SV. destruct SV as [SV NE]. rewrite wo_get by exact NE. exact (X8c j SV).
    + intros j J. apply wo_variable in J. destruct J as [J NE]. apply shape_down; auto.
    + intros j r I. destruct (String.eqb_spec (python_name j) k) as [Q|NE].
      * intros x G. rewrite Q, wo_absent in G. discriminate G.
      * apply rule_down; auto.
    + intros M j x G U. assert (NE := wo_neq _ _ G). rewrite wo_get in G by exact NE. exact (X11 M j x G U).
    + exact X12.
Qed.
End Valid.
End Without.
