(** Facts about objects that differ in the order of their data. *)
From Verif Require Import Base PyStr NdArray Sofa Verify SpecInit SpecVerify SpecOrder BaseFacts.
From Coq Require Import Permutation Lia.
Open Scope string_scope.
Open Scope list_scope.
Open Scope nat_scope.

Lemma perm_keys {A} (d d' : dict A) : NoDup (dkeys d) -> Permutation d d' -> NoDup (dkeys d').
Proof. intros N P. unfold dkeys. apply (Permutation_NoDup (Permutation_map fst P) N). Qed.

Lemma perm_dget {A} (d d' : dict A) k : NoDup (dkeys d) -> Permutation d d' -> dget k d' = dget k d.
Proof.
  intros N P. assert (N' := perm_keys d d' N P). destruct (dget k d) as [v|] eqn:G.
  - apply In_dget; [exact N'|]. apply (Permutation_in _ P). apply dget_In. exact G.
  - apply dget_None. intro I. apply dget_None in G. apply G.
    apply (Permutation_in k (Permutation_sym (Permutation_map fst P)) I).
Qed.

Lemma perm_filter {A} (f : A -> bool) (l l' : list A) : Permutation l l' ->
  Permutation (filter f l) (filter f l').
Proof.
  intro P. induction P as [|x l l' P IH|x y l|l l' l'' P1 IH1 P2 IH2]; cbn [filter].
  - constructor.
  - destruct (f x); [apply perm_skip; exact IH|exact IH].
  - destruct (f x), (f y); try apply perm_swap; apply Permutation_refl.
  - apply (perm_trans IH1 IH2).
Qed.

Lemma nodup_filter_keys {A} (f : string * A -> bool) (d : dict A) :
  NoDup (dkeys d) -> NoDup (dkeys (filter f d)).
Proof.
  unfold dkeys. induction d as [|[k v] d IH]; cbn [map filter fst]; intro N; [constructor|].
  inversion_clear N as [|x l N1 N2]. destruct (f (k, v)); [|apply IH; exact N2].
  cbn [map fst]. constructor; [|apply IH; exact N2]. intro I. apply N1.
  apply in_map_iff in I. destruct I as [y [Y1 Y2]]. apply filter_In in Y2. apply in_map_iff.
  exists y. split; [exact Y1|apply Y2].
Qed.

(** *** the last statement *)
Lemma last_split {A B} (dec : forall x y : A, {x = y} + {x <> y}) (c : A) (l : list (A * B)) :
  In c (map fst l) -> exists l1 n r, l = l1 ++ (c, n) :: r /\ ~ In c (map fst r).
Proof.
  induction l as [|[a b] l IH]; cbn [map fst]; intro I; [destruct I|].
  destruct (in_dec dec c (map fst l)) as [J|J].
  - destruct (IH J) as [l1 [n [r [E N]]]]. exists ((a, b) :: l1), n, r. rewrite E. split; [reflexivity|exact N].
  - destruct I as [->|I]; [|contradiction]. exists [], b, l. split; [reflexivity|exact J].
Qed.

Lemma last_unique {A B} (c : A) (l l1 l2 r1 r2 : list (A * B)) n1 n2 :
  l = l1 ++ (c, n1) :: r1 -> ~ In c (map fst r1) ->
  l = l2 ++ (c, n2) :: r2 -> ~ In c (map fst r2) -> n1 = n2.
Proof.
  intros E1 N1 E2 N2. rewrite E1 in E2. clear l E1. revert l2 E2.
  induction l1 as [|x l1 IH]; intros [|y l2] E2; cbn [app] in E2.
  - injection E2 as <- <-. reflexivity.
  - injection E2 as E3 E4. exfalso. apply N1. rewrite E4, map_app. apply in_app_iff. right. left. reflexivity.
  - injection E2 as E3 E4. exfalso. apply N2. rewrite <- E4, map_app. apply in_app_iff. right. left. reflexivity.
  - injection E2 as E3 E4. apply (IH l2 E4).
Qed.

Lemma app_split {A} (a b l r : list A) x : a ++ b = l ++ x :: r ->
  (exists r1, a = l ++ x :: r1 /\ r = r1 ++ b) \/ (exists l2, b = l2 ++ x :: r /\ l = a ++ l2).
Proof.
  revert l. induction a as [|y a IH]; intros l E; cbn [app] in E.
  - right. exists l. split; [exact E|reflexivity].
  - destruct l as [|z l]; cbn [app] in E.
    + injection E as <- E. left. exists a. split; [reflexivity|symmetry; exact E].
    + injection E as <- E. destruct (IH l E) as [[r1 [X1 X2]]|[l2 [X1 X2]]].
      * left. exists r1. split; [rewrite X1; reflexivity|exact X2].
      * right. exists l2. split; [exact X1|rewrite X2; reflexivity].
Qed.

Lemma flat_split {A B} (f : A -> list B) ks l x r : flat_map f ks = l ++ x :: r ->
  exists k l1 r1 r2, In k ks /\ f k = l1 ++ x :: r1 /\ r = r1 ++ r2.
Proof.
  revert l. induction ks as [|k ks IH]; cbn [flat_map]; intros l E.
  - destruct l; discriminate E.
  - apply app_split in E. destruct E as [[r1 [E1 E2]]|[l2 [E1 E2]]].
    + exists k, l, r1, (flat_map f ks). split; [left; reflexivity|]. split; [exact E1|exact E2].
    + destruct (IH l2 E1) as [k2 [l1 [r1 [r2 [I [X1 X2]]]]]]. exists k2, l1, r1, r2.
      split; [right; exact I|]. split; [exact X1|exact X2].
Qed.

(** *** reordered objects *)
Section Reordered.
Variables (cv : convention) (o o' : sofa).
Hypothesis (DO : dicts_ok o) (RE : reordered o o').

Lemma re_sym : dicts_ok o' /\ reordered o' o.
Proof.
  destruct DO as [D1 D2]. destruct RE as [R1 R2]. split; split.
  - apply (perm_keys _ _ D1 R1).
  - destruct (custom o) as [cu|], (custom o') as [cu'|]; try exact I; try contradiction.
    apply (perm_keys _ _ D2 R2).
  - apply Permutation_sym. exact R1.
  - destruct (custom o), (custom o'); try exact I; try contradiction. apply Permutation_sym. exact R2.
Qed.

Lemma re_pub k : dget k (pub o') = dget k (pub o).
Proof. apply perm_dget; [apply DO|apply RE]. Qed.

Lemma re_contained k : contained o' k <-> contained o k.
Proof.
  unfold contained, dkeys. destruct RE as [R _].
  split; apply Permutation_in; apply Permutation_map; [apply Permutation_sym|]; exact R.
Qed.

Lemma re_own : Permutation (own_custom cv o) (own_custom cv o') /\ NoDup (dkeys (own_custom cv o)).
Proof.
  destruct DO as [_ D]. destruct RE as [_ R]. unfold own_custom.
  destruct (custom o) as [cu|], (custom o') as [cu'|]; try contradiction.
  - split; [apply perm_filter; exact R|apply nodup_filter_keys; exact D].
  - split; constructor.
Qed.

Lemma re_declared k : declared cv o' k = declared cv o k.
Proof.
  unfold declared. destruct (dget k cv); [reflexivity|]. destruct re_own as [P N].
  apply perm_dget; [exact N|exact P].
Qed.

Lemma re_states k : states cv o' k = states cv o k.
Proof. unfold states. rewrite re_declared, re_pub. reflexivity. Qed.

Lemma re_variables k : In k (variables cv o') <-> In k (variables cv o).
Proof.
  assert (P : Permutation (variables cv o) (variables cv o')).
  { unfold variables. apply Permutation_app.
    - rewrite (filter_ext (fun k0 => match declared cv o' k0 with
        | Some e => match e_dims e with Some _ => true | None => false end | None => false end)
        (fun k0 => match declared cv o k0 with
        | Some e => match e_dims e with Some _ => true | None => false end | None => false end)).
      + apply perm_filter. unfold dkeys. apply Permutation_map. apply RE.
      + intro k0. rewrite re_declared. reflexivity.
    - apply perm_filter, Permutation_map, perm_filter. apply re_own. }
  split; apply Permutation_in; [apply Permutation_sym|]; exact P.
Qed.

Lemma re_in_states x : In x (all_states cv o') <-> In x (all_states cv o).
Proof.
  unfold all_states. rewrite !in_flat_map. split; intros [k [K1 K2]]; exists k.
  - rewrite re_states in K2. apply re_variables in K1. split; assumption.
  - rewrite re_states. apply re_variables in K1. split; assumption.
Qed.

Lemma re_string_variable k : string_variable cv o' k <-> string_variable cv o k.
Proof. unfold string_variable. rewrite re_declared, re_variables. reflexivity. Qed.

Lemma re_longest n : longest cv o n -> longest cv o' n.
Proof.
  intros [L1 L2]. split.
  - intros k v s ls l K G. apply re_string_variable in K. rewrite re_pub in G. apply (L1 k v s ls l K G).
  - destruct L2 as [L2|[k [v [s [ls [K [G X]]]]]]]; [left; exact L2|right].
    exists k, v, s, ls. rewrite re_pub. apply re_string_variable in K. split; [exact K|split; [exact G|exact X]].
Qed.

Lemma re_sized : sized cv o -> sized cv o'.
Proof.
  intros [S1 [S2 S3]]. split; [|split].
  - intros k K. apply re_contained. apply S1. apply re_variables. exact K.
  - intros c n I. apply (S2 c n). apply re_in_states. exact I.
  - intros k K. apply re_string_variable in K. destruct (S3 k K) as [v [s [ls X]]]. exists v, s, ls.
    rewrite re_pub. exact X.
Qed.

Lemma re_states_size k c : states_size cv o' k c <-> states_size cv o k c.
Proof. unfold states_size. rewrite re_states, re_variables. reflexivity. Qed.

Lemma re_orderly : orderly cv o -> orderly cv o'.
Proof.
  intros H c. destruct (H c) as [X|X]; [left|right].
  - intros k k' A B. apply X; apply re_states_size; assumption.
  - intros k A. apply re_states_size in A. intros e d v i x. rewrite re_declared, re_pub. apply (X k A).
Qed.
End Reordered.

(** *** sizes *)
Lemma indexed_nth s : forall j i x, In (i, x) (indexed j s) <-> exists n, i = j + n /\ nth_error (chars s) n = Some x.
Proof.
  induction s as [|c s IH]; intros j i x; cbn [indexed chars list_ascii_of_string In].
  - split; [intros []|]. intros [n [_ N]]. destruct n; discriminate N.
  - rewrite IH. split.
    + intros [E|[n [N1 N2]]].
      * injection E as <- <-. exists 0. split; [lia|reflexivity].
      * exists (S n). split; [lia|exact N2].
    + intros [[|n] [N1 N2]].
      * left. cbn [nth_error] in N2. injection N2 as ->. f_equal. lia.
      * right. exists n. split; [lia|exact N2].
Qed.

Lemma states_In cv o k c n : In (c, n) (states cv o k) ->
  exists e d v i x, declared cv o k = Some e /\ e_dims e = Some d /\ dget k (pub o) = Some v
   /\ nth_error (chars (main_alternative d)) i = Some x /\ is_lower_ascii x = true /\ upper_char x = c
   /\ n = axis v i.
Proof.
  unfold states. destruct (declared cv o k) as [e|]; [|intros []].
  destruct (dget k (pub o)) as [v|]; [|intros []]. destruct (e_dims e) as [d|] eqn:D; [|intros []].
  intro I. apply in_map_iff in I. destruct I as [[i x] [I1 I2]]. cbn [fst snd] in I1. injection I1 as <- <-.
  apply filter_In in I2. destruct I2 as [I2 I3]. apply indexed_nth in I2. destruct I2 as [j [-> I2]].
  exists e, d, v, j, x. cbn [snd plus] in *. auto 10.
Qed.

Lemma axis_nth v i n : axis v i = Some n -> nth i (shape_of v) 1 = n.
Proof.
  unfold axis. intro H. set (s := shape_of v) in *.
  destruct (Nat.lt_ge_cases i (List.length s)) as [L|L].
  - rewrite nth_error_app1 in H by exact L. apply (nth_error_nth s i 1 H).
  - rewrite nth_error_app2 in H by exact L. rewrite nth_overflow by exact L.
    destruct (Nat.lt_ge_cases (i - List.length s) (4 - List.length s)) as [M|M].
    + rewrite nth_error_repeat in H by exact M. injection H as <-. reflexivity.
    + rewrite (proj2 (nth_error_None _ _)) in H by (rewrite repeat_length; exact M). discriminate H.
Qed.

Lemma shape4_nth s i : List.length s <> 1 -> i < 4 -> nth i (shape4 s) 1 = nth i s 1.
Proof.
  intros L I. destruct s as [|a [|b [|c [|e s]]]]; cbn [shape4];
    try (exfalso; apply L; reflexivity);
    do 4 (destruct i as [|i]; [reflexivity|]); lia.
Qed.

(** every size that a variable of a valid object states is the size *)
Lemma stated_is_size E m o c0 v0 cv k c n : valid_for E m o c0 v0 cv ->
  has_char c "CIS" = false -> In k (variables cv o) -> In (c, Some n) (states cv o k) ->
  compared_as_stated cv o k c -> size cv o (str1 c) n.
Proof.
  intros V C K I CS. destruct (states_In _ _ _ _ _ I) as [e [d [v [i [x [D [ED [G [X1 [X2 [X3 A]]]]]]]]]]].
  symmetry in A. apply axis_nth in A.
  destruct (CS e d v i x D ED G X1 X2 X3) as [AL SH].
  destruct (va_shapes _ _ _ _ _ _ V k K) as [e' [d' [v' [s [pre [alt [post [D' [ED' [G' [CP [ALT [_ F]]]]]]]]]]]]].
  rewrite D in D'. injection D' as <-. rewrite ED in ED'. injection ED' as <-. rewrite G in G'. injection G' as <-.
  destruct (AL alt) as [y [Y1 Y2]].
  { rewrite ALT. apply in_app_iff. right. left. reflexivity. }
  specialize (F i y Y1). unfold extent in F.
  destruct (Ascii.eqb y "S") eqn:YS.
  - apply Ascii.eqb_eq in YS. subst y. rewrite <- Y2 in C. vm_compute in C. discriminate C.
  - rewrite Y2 in F. assert (NS : nth i s 1 = nth i (shape_of v) 1).
    { destruct (va_type _ _ _ _ _ _ V k v G) as [e2 [D2 TY]]. rewrite D in D2. injection D2 as <-.
      destruct CP as [s ls TS ST|N1 N2 L|N1 N2 L].
      - destruct ST as [b t|a n0 rest ls SA _ _ _].
        + cbn [shape_of]. destruct i as [|[|i]]; try reflexivity. cbn [nth]. destruct i; reflexivity.
        + cbn [shape_of]. rewrite SA. reflexivity.
      - assert (T : e_type e = "double") by (destruct TY as [[T _]|[[T _]|[T _]]]; [contradiction|exact T|contradiction]).
        specialize (SH T). apply Nat.ltb_lt in L. rewrite L in SH. apply shape4_nth; apply SH.
      - assert (T : e_type e = "double") by (destruct TY as [[T _]|[[T _]|[T _]]]; [contradiction|exact T|contradiction]).
        specialize (SH T). apply Nat.ltb_ge in L. rewrite L in SH. destruct SH as [SH ->].
        destruct (shape_of v) as [|a [|b r]]; cbn [List.length] in SH; [reflexivity| |lia].
        cbn [prod fold_right nth]. unfold prod. cbn [fold_right]. lia. }
    rewrite NS, A in F. exact F.
Qed.

Lemma size_letter cv o c n : has_char c "CIS" = false -> size cv o (str1 c) n ->
  exists l r, all_states cv o = l ++ (c, Some n) :: r /\ ~ In c (map fst r).
Proof.
  intros C [[X _]|[[X _]|[[X _]|[c' [l [r [X [_ [H1 H2]]]]]]]]];
    unfold str1 in X; injection X as X; subst; try (vm_compute in C; discriminate C).
  exists l, r. split; assumption.
Qed.

Lemma size_reordered E m o o' c0 v0 cv x n : dicts_ok o -> reordered o o' -> valid_for E m o c0 v0 cv ->
  orderly cv o -> size cv o x n -> size cv o' x n.
Proof.
  intros DO RE V OR [S|[S|[[S1 S2]|[c [l [r [S1 [S2 [S3 S4]]]]]]]]].
  - left. exact S.
  - right. left. exact S.
  - right. right. left. split; [exact S1|]. apply (re_longest cv o o' DO RE n S2).
  - right. right. right.
    assert (IN : In c (map fst (all_states cv o'))).
    { apply in_map_iff. exists (c, Some n). split; [reflexivity|]. apply (re_in_states cv o o' DO RE).
      rewrite S3. apply in_app_iff. right. left. reflexivity. }
    destruct (last_split Ascii.ascii_dec c _ IN) as [l' [n' [r' [L1 L2]]]].
    assert (NN : n' = Some n); [|subst n'; exists c, l', r'; auto].
    destruct (flat_split _ _ _ _ _ S3) as [k [a1 [b1 [b2 [K1 [K2 K3]]]]]].
    destruct (flat_split _ _ _ _ _ L1) as [k' [a1' [b1' [b2' [K1' [K2' K3']]]]]].
    rewrite (re_states cv o o' DO RE) in K2'. apply (re_variables cv o o' DO RE) in K1'.
    assert (I' : In (c, n') (states cv o k')) by (rewrite K2'; apply in_app_iff; right; left; reflexivity).
    assert (I1 : In (c, Some n) (states cv o k)) by (rewrite K2; apply in_app_iff; right; left; reflexivity).
    destruct (OR c) as [X|X].
    + assert (k = k') by (apply X; (split; [assumption|eauto])). subst k'.
      symmetry. apply (last_unique c (states cv o k) a1 a1' b1 b1' _ _ K2).
      * intro J. apply S4. rewrite K3, map_app. apply in_app_iff. left. exact J.
      * exact K2'.
      * intro J. apply L2. rewrite K3', map_app. apply in_app_iff. left. exact J.
    + destruct n' as [n'|].
      * assert (Z := stated_is_size E m o c0 v0 cv k' c n' V S2 K1' I').
        assert (SS : states_size cv o k' c) by (split; [exact K1'|exists (Some n'); exact I']). specialize (Z (X k' SS)).
        destruct (size_letter cv o c n' S2 Z) as [l2 [r2 [Z1 Z2]]].
        symmetry. apply (last_unique c _ _ _ _ _ _ _ S3 S4 Z1 Z2).
      * exfalso. apply (proj1 (proj2 (va_sized _ _ _ _ _ _ V)) c None); [|reflexivity].
        apply in_flat_map. exists k'. split; assumption.
Qed.

Lemma extent_reordered E m o o' c0 v0 cv x n : dicts_ok o -> reordered o o' -> valid_for E m o c0 v0 cv ->
  orderly cv o -> extent cv o x n -> extent cv o' x n.
Proof.
  intros DO RE V OR. unfold extent. destruct (Ascii.eqb x "S"); [trivial|].
  apply (size_reordered E m o o' c0 v0 cv); assumption.
Qed.

Lemma valid_reordered E m o o' c v cv : dicts_ok o -> reordered o o' -> valid_for E m o c v cv ->
  orderly cv o -> valid_for E m o' c v cv.
Proof.
  intros DO RE V OR. assert (PB := re_pub o o' DO RE). assert (DC := re_declared cv o o' DO RE).
  assert (CT := re_contained o o' RE). assert (EX := fun x n => extent_reordered E m o o' c v cv x n DO RE V OR).
  assert (SZ := fun x n => size_reordered E m o o' c v cv x n DO RE V OR).
  assert (AV : forall key ref, allowed_value E o key ref -> allowed_value E o' key ref).
  { intros key ref. unfold allowed_value. rewrite PB. trivial. }
  destruct V as [V1 V2 V3 V4 V5 V6 V7 V8 V9 V10 V11 V12]. split.
  - rewrite PB. exact V1.
  - rewrite PB. exact V2.
  - exact V3.
  - intros k e. rewrite DC. intros D M. apply CT. apply (V4 k e D M).
  - intros k w. rewrite PB, DC. apply V5.
  - intros k e K. rewrite DC. apply CT in K. intro D. specialize (V6 k e K D).
    destruct V6 as [N1 N2]. split; [|exact N2]. intro T. destruct (N1 T) as [var [a [A1 [A2 A3]]]].
    exists var, a. rewrite DC. split; [exact A1|]. split; [exact A2|exact A3].
  - destruct V7 as [V7|[V7 [V7' V7'']]].
    + left. destruct RE as [_ R]. rewrite V7 in R. destruct (custom o'); [destruct R|reflexivity].
    + right. rewrite PB. split; [exact V7|]. split; [exact V7'|]. intros k n K. apply V7''.
      destruct (re_own cv o o' DO RE) as [P _]. unfold dkeys in *.
      apply (Permutation_in k (Permutation_sym (Permutation_map fst P)) K).
  - apply (re_sized cv o o' DO RE V8).
  - intros k K. apply (re_variables cv o o' DO RE) in K. destruct (V9 k K) as [e [d [w [s [pre [alt [post [A1 [A2 [A3 [A4 [A5 [A6 A7]]]]]]]]]]]]].
    exists e, d, w, s, pre, alt, post. rewrite DC, PB. split; [exact A1|]. split; [exact A2|]. split; [exact A3|].
    split; [exact A4|]. split; [exact A5|]. split.
    + intros a I x X. destruct (A6 a I x X) as [n N]. exists n. apply EX. exact N.
    + intros i x X. apply EX. apply (A7 i x X).
  - intros k r R w. rewrite PB. intro G. destruct (V10 k r R w G) as [R1 [R2 R3]]. split; [|split].
    + intros ref RV. apply AV. apply (R1 ref RV).
    + intros g GI. apply CT. apply (R2 g GI).
    + intros sp SP. destruct (R3 sp SP) as [Q1 Q2]. split; [exact Q1|].
      intros b s items kd W D I. specialize (Q2 b s items kd W D I). unfold dep_ok in *.
      destruct (snd kd) as [l|[ref|]].
      * intros x ns t XI. destruct (Q2 x ns t XI) as [n [N1 N2]]. exists n. split; [apply SZ; exact N1|exact N2].
      * apply AV. exact Q2.
      * apply CT. exact Q2.
  - intros M k w. rewrite PB. apply (V11 M).
  - exact V12.
Qed.

Lemma valid_convention E m o c v cv : valid_for E m o c v cv -> convention_of E o cv.
Proof.
  intro V. destruct (va_name _ _ _ _ _ _ V) as [b B]. destruct (va_version _ _ _ _ _ _ V) as [w [W P]].
  destruct (va_file _ _ _ _ _ _ V) as [ct [H1 H2]]. exists b, c, w, ct. rewrite P. auto.
Qed.

Lemma reordered_valid E m o o' : dicts_ok o -> reordered o o' ->
  (forall cv, convention_of E o cv -> orderly cv o) -> valid E m o -> valid E m o'.
Proof.
  intros DO RE OR [c [v [cv V]]]. exists c, v, cv.
  apply (valid_reordered E m o o' c v cv DO RE V). apply OR. apply (valid_convention E m o c v cv V).
Qed.

Lemma reordered_convention E o o' cv : dicts_ok o -> reordered o o' ->
  convention_of E o' cv -> convention_of E o cv.
Proof.
  intros DO RE [b [c [w [ct [A [B C]]]]]]. exists b, c, w, ct.
  rewrite <- !(re_pub o o' DO RE). auto.
Qed.
