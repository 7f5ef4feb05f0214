(** equals. *)
From Verif Require Import Base PyStr PyNum NdArray Sofa Verify Utils SpecAttr SpecInit SpecVerify SpecUpgrade SpecEquals
  BaseFacts StrFacts AttrFacts OpFacts InitFacts ProtFacts MissingFacts CoreFacts ValidFacts ShapeFacts RuleFacts
  VerifyFacts DictFacts IssueFacts DimFacts UpgradeFacts.
From Coq Require Import Lia ZArith Permutation.
Open Scope string_scope.
Open Scope list_scope.
Open Scope nat_scope.

(** ** Texts *)
Lemma strip_nul_spec s : exists n, s = strip_nul s +++ nuls n.
Proof.
  induction s as [|c s [n IH]]; [exists 0; reflexivity|]. cbn [strip_nul].
  destruct (strip_nul s) as [|d r] eqn:Q.
  - destruct (Ascii.eqb_spec c zero) as [->|N].
    + exists (S n). rewrite IH. reflexivity.
    + exists n. rewrite IH. reflexivity.
  - exists n. rewrite IH at 1. reflexivity.
Qed.

Lemma strip_nul_nuls n : strip_nul (nuls n) = "".
Proof. unfold nuls. induction n as [|n IH]; [reflexivity|]. cbn. cbn in IH. rewrite IH. reflexivity. Qed.

Lemma strip_nul_app s n : strip_nul (s +++ nuls n) = strip_nul s.
Proof. induction s as [|c s IH]; [apply strip_nul_nuls|]. cbn. cbn in IH. rewrite IH. reflexivity. Qed.

Lemma strip_nul_eq s t : strip_nul s = strip_nul t <-> exists m n, s +++ nuls m = t +++ nuls n.
Proof.
  split.
  - intro H. destruct (strip_nul_spec s) as [m Hs]. destruct (strip_nul_spec t) as [n Ht].
    exists n, m. rewrite Hs, Ht, H, !sapp_assoc. f_equal. unfold nuls.
    assert (A : forall a b, string_of_list_ascii (repeat zero a) +++ string_of_list_ascii (repeat zero b)
      = string_of_list_ascii (repeat zero (a + b))).
    { induction a as [|a IH]; intro b; [reflexivity|]. cbn. rewrite IH. reflexivity. }
    rewrite !A. f_equal. f_equal. lia.
  - intros [m [n H]]. rewrite <- (strip_nul_app s m), <- (strip_nul_app t n), H. reflexivity.
Qed.

Lemma to_bytes_iff p x : to_bytes p = Ok x <-> exists s, text p s /\ x = strip_nul s.
Proof.
  split.
  - destruct p; cbn; try discriminate.
    + destruct (forallb is_ascii (chars s)) eqn:F; [|discriminate]. intro H. inversion H; subst. exists s. split; [|reflexivity].
      constructor. apply Forall_forall. intros c C. rewrite forallb_forall in F. specialize (F c C).
      apply Nat.ltb_lt. exact F.
    + intro H. inversion H; subst. exists s. split; [constructor|reflexivity].
  - intros [s [T ->]]. inversion T; subst; cbn; [|reflexivity].
    replace (forallb is_ascii (chars s)) with true; [reflexivity|]. symmetry. apply forallb_forall.
    rewrite Forall_forall in H. intros c C. apply Nat.ltb_lt. exact (H c C).
Qed.

Lemma text_fun p s t : text p s -> text p t -> s = t.
Proof. intros H1 H2. inversion H1; subst; inversion H2; reflexivity. Qed.

Lemma same_text_iff p q x y : to_bytes p = Ok x -> to_bytes q = Ok y ->
  (String.eqb x y = true <-> same_text p q).
Proof.
  intros H1 H2. apply to_bytes_iff in H1. apply to_bytes_iff in H2.
  destruct H1 as [s [T1 ->]]. destruct H2 as [t [T2 ->]]. rewrite String.eqb_eq, strip_nul_eq. split.
  - intros [m [n H]]. exists s, t, m, n. auto.
  - intros [s' [t' [m [n [U1 [U2 H]]]]]]. rewrite (text_fun _ _ _ T1 U1), (text_fun _ _ _ T2 U2). eauto.
Qed.

(** ** Numbers *)
Lemma to_double_iff p x : to_double p = Ok x <-> number p x.
Proof.
  split.
  - destruct p; cbn; intro H; inversion H; subst; constructor.
  - intro H. inversion H; reflexivity.
Qed.

Lemma isclose_iff x y : isclose x y = true <-> close x y.
Proof.
  unfold isclose, close. rewrite !orb_true_iff, !andb_true_iff. split.
  - intros [[[H1 H2]|H]|[H1 H2]]; auto.
    right. left. destruct x; try discriminate; destruct y; try discriminate. auto.
  - intros [H|[[-> ->]|[H1 H2]]]; auto.
Qed.

Lemma close_elts_iff p q x y : to_double p = Ok x -> to_double q = Ok y ->
  (isclose x y = true <-> close_elts p q).
Proof.
  intros H1 H2. rewrite isclose_iff. split.
  - intro H. exists x, y. rewrite <- !to_double_iff. auto.
  - intros [x' [y' [N1 [N2 H]]]]. apply to_double_iff in N1. apply to_double_iff in N2. congruence.
Qed.

(** ** Pairs of elements *)
Lemma rmap_nth {A B} (f : A -> res B) l : forall l', rmap f l = Ok l' ->
  List.length l' = List.length l
  /\ forall i, match nth_error l i, nth_error l' i with
               | Some x, Some y => f x = Ok y
               | None, None => True
               | _, _ => False
               end.
Proof.
  induction l as [|x l IH]; intros l' H; cbn [rmap] in H.
  - inversion H; subst. split; [reflexivity|]. intros [|i]; exact I.
  - apply rbind_Ok in H. destruct H as [y [H1 H]]. apply rbind_Ok in H. destruct H as [r [H2 H]]. inversion H; subst.
    destruct (IH r H2) as [L N]. split; [cbn; rewrite L; reflexivity|]. intros [|i]; [exact H1|apply N].
Qed.

Lemma rmap_ok_iff {A B} (f : A -> res B) l : (exists l', rmap f l = Ok l') <-> forall x, In x l -> exists y, f x = Ok y.
Proof.
  induction l as [|x l IH]; cbn [rmap In].
  - split; [intros _ ? []|intros _; eauto].
  - split.
    + intros [l' H]. apply rbind_Ok in H. destruct H as [y [H1 H]]. apply rbind_Ok in H. destruct H as [r [H2 H]].
      intros z [->|I]; [eauto|]. apply (proj1 IH); eauto.
    + intro H. destruct (H x (or_introl eq_refl)) as [y ->]. destruct (proj2 IH (fun z I => H z (or_intror I))) as [r ->].
      cbn. eauto.
Qed.

Lemma rmap_err {A B} (f : A -> res B) l e : rmap f l = Err e -> exists x, In x l /\ f x = Err e.
Proof.
  induction l as [|x l IH]; cbn [rmap]; [discriminate|]. destruct (f x) as [y|e'] eqn:F; cbn.
  - destruct (rmap f l) as [r|e'']; cbn; [discriminate|]. intro H. inversion H; subst.
    destruct (IH eq_refl) as [z [I Z]]. eauto.
  - intro H. inversion H; subst. eauto.
Qed.

Lemma all_pairs_left {A} (f : A -> A -> bool) x y m : List.length x = m * List.length y ->
  (all_pairs f x y = true <->
   forall i p q, nth_error x i = Some p -> nth_error y (i mod List.length y) = Some q -> f p q = true).
Proof.
  intro L. unfold all_pairs. rewrite forallb_forall. split.
  - intros H i p q P Q. assert (LI : i < List.length x) by (apply nth_error_Some; congruence).
    assert (LY : List.length y <> 0) by (intro Z; rewrite Z in L; lia).
    destruct (Nat.eqb_spec (List.length x) 0) as [Z|_]; [lia|].
    destruct (Nat.eqb_spec (List.length y) 0) as [Z|_]; [lia|]. cbn [orb] in H.
    specialize (H i). rewrite in_seq in H. rewrite (Nat.mod_small i _ LI), P, Q in H. apply H. lia.
  - intros H i I. destruct (Nat.eqb_spec (List.length x) 0) as [Z|Z]; [destruct I|].
    destruct (Nat.eqb_spec (List.length y) 0) as [Z'|Z']; [destruct I|]. cbn [orb] in I.
    apply in_seq in I.
    assert (List.length y <= List.length x) by (destruct m; [lia|rewrite L; cbn; lia]).
    rewrite (Nat.mod_small i (List.length x)) by lia.
    destruct (nth_error x i) as [p|] eqn:P; [|reflexivity].
    destruct (nth_error y (i mod List.length y)) as [q|] eqn:Q; [|reflexivity].
    exact (H i p q P Q).
Qed.

Lemma all_pairs_swap {A} (f : A -> A -> bool) x y : all_pairs f x y = all_pairs (fun p q => f q p) y x.
Proof.
  unfold all_pairs. rewrite Nat.max_comm, orb_comm.
  assert (FE : forall (g h : nat -> bool) l, (forall i, g i = h i) -> forallb g l = forallb h l)
    by (intros g h l H; induction l as [|i l IH]; cbn; [reflexivity|rewrite H, IH; reflexivity]).
  apply FE. intro i.
  destruct (nth_error x _), (nth_error y _); reflexivity.
Qed.

(** conversion before the comparison *)
Lemma pairs_conv {B} (c : elt -> res B) (f : B -> B -> bool) (R : elt -> elt -> Prop) d d' p q m :
  (forall u v x y, c u = Ok x -> c v = Ok y -> (f x y = true <-> R u v)) ->
  rmap c d = Ok p -> rmap c d' = Ok q -> List.length d = m * List.length d' ->
  (all_pairs f p q = true <-> repeated R d d').
Proof.
  intros HR P Q L. destruct (rmap_nth c d p P) as [LP NP]. destruct (rmap_nth c d' q Q) as [LQ NQ].
  rewrite (all_pairs_left f p q m) by congruence. unfold repeated. rewrite LQ. split; intros H i u v U V.
  - specialize (NP i). specialize (NQ (i mod List.length d')). rewrite U in NP. rewrite V in NQ.
    destruct (nth_error p i) as [x|] eqn:X; [|destruct NP].
    destruct (nth_error q (i mod List.length d')) as [y|] eqn:Y; [|destruct NQ].
    apply (HR u v x y NP NQ). exact (H i x y X Y).
  - specialize (NP i). specialize (NQ (i mod List.length d')). rewrite U in NP. rewrite V in NQ.
    destruct (nth_error d i) as [x|] eqn:X; [|destruct NP].
    destruct (nth_error d' (i mod List.length d')) as [y|] eqn:Y; [|destruct NQ].
    apply (HR x y u v NP NQ). exact (H i x y X Y).
Qed.

Lemma pairs_conv_r {B} (c : elt -> res B) (f : B -> B -> bool) (R : elt -> elt -> Prop) d d' p q m :
  (forall u v x y, c u = Ok x -> c v = Ok y -> (f x y = true <-> R u v)) ->
  rmap c d = Ok p -> rmap c d' = Ok q -> List.length d' = m * List.length d ->
  (all_pairs f p q = true <-> repeated (fun v u => R u v) d' d).
Proof.
  intros HR P Q L. rewrite all_pairs_swap.
  apply (pairs_conv c (fun p q => f q p) (fun v u => R u v) d' d q p m); try assumption.
  intros u v x y X Y. apply HR; assumption.
Qed.

(** ** Shapes *)
Lemma prod_squeeze s : prod (sh_squeeze s) = prod s.
Proof.
  unfold sh_squeeze. induction s as [|n s IH]; [reflexivity|]. cbn [filter prod].
  destruct (Nat.eqb_spec n 1) as [->|N]; cbn [negb prod]; rewrite IH; lia.
Qed.
Lemma prod_app s t : prod (s ++ t) = prod s * prod t.
Proof. induction s as [|n s IH]; cbn [app prod]; [lia|rewrite IH; lia]. Qed.

Lemma shape_eqb_eq s : forall t, shape_eqb s t = true <-> s = t.
Proof.
  induction s as [|n s IH]; intros [|m t]; cbn; try (split; [discriminate|discriminate]); [tauto|].
  rewrite andb_true_iff, Nat.eqb_eq, IH. split; [intros [-> ->]; reflexivity|intro H; inversion H; auto].
Qed.

Lemma skipn_suffix {A} (s t : list A) : (exists pre, s = pre ++ t) <-> skipn (List.length s - List.length t) s = t.
Proof.
  split.
  - intros [pre ->]. rewrite app_length. replace (List.length pre + List.length t - List.length t) with (List.length pre) by lia.
    rewrite skipn_app, Nat.sub_diag, skipn_all. reflexivity.
  - intro H. exists (firstn (List.length s - List.length t) s). rewrite <- H at 2. symmetry. apply firstn_skipn.
Qed.

Lemma broadcasts_iff s t : broadcasts s t = true <-> (exists pre, s = pre ++ t) \/ (exists pre, t = pre ++ s).
Proof.
  unfold broadcasts. rewrite orb_true_iff, !shape_eqb_eq, !skipn_suffix. split; (intros [H|H]; [left|right]; auto).
Qed.

Lemma squeezed_iff v s d : squeezed v = Ok (s, d) <-> content_of v s d.
Proof.
  unfold squeezed, content_of, sh_squeeze. split.
  - intro H. apply rbind_Ok in H. destruct H as [a [H1 H]]. destruct (a_mask a) eqn:M; [discriminate|].
    inversion H; subst. exists a. auto.
  - intros [a [H1 [H2 [-> ->]]]]. rewrite H1. cbn. rewrite H2. reflexivity.
Qed.

Lemma content_size v s d : plain_value v -> content_of v s d -> List.length d = prod s.
Proof.
  intros P [a [H1 [_ [-> ->]]]]. change (filter _ (a_shape a)) with (sh_squeeze (a_shape a)). rewrite prod_squeeze.
  destruct v as [b t|x|a'|l]; [| | |destruct P]; cbn in H1; inversion H1; subst; try reflexivity.
  apply Nat.eqb_eq. exact P.
Qed.

(** ** Values *)
Lemma conv_all {B} (c : elt -> res B) (P : elt -> B -> Prop) d :
  (forall p x, c p = Ok x <-> P p x) -> (exists l, rmap c d = Ok l) <-> forall p, In p d -> exists x, P p x.
Proof.
  intro H. rewrite rmap_ok_iff. split; intros G p I; destruct (G p I) as [x X]; exists x; apply H; exact X.
Qed.
Lemma text_all d : (exists l, rmap to_bytes d = Ok l) <-> forall p, In p d -> exists x, text p x.
Proof.
  rewrite rmap_ok_iff. split; intros G p I; destruct (G p I) as [x X].
  - apply to_bytes_iff in X. destruct X as [s [T _]]. eauto.
  - exists (strip_nul x). apply to_bytes_iff. eauto.
Qed.

Lemma same_numbers_iff v w : plain_value v -> plain_value w ->
  ((exists p q, squeezed v = Ok p /\ squeezed w = Ok q /\ allclose p q = Ok true) <-> same_numbers v w).
Proof.
  intros PV PW. split.
  - intros [[s d] [[s' d'] [H1 [H2 H3]]]]. apply squeezed_iff in H1. apply squeezed_iff in H2.
    assert (L1 := content_size _ _ _ PV H1). assert (L2 := content_size _ _ _ PW H2).
    assert (K : forall c, (s = s' \/ s = [] \/ s' = []) ->
      (let? p := rmap to_double d in let? q := rmap to_double d' in Ok (all_pairs isclose p q)) = Ok c ->
      c = true -> same_numbers v w).
    { intros c C H ->. apply rbind_Ok in H. destruct H as [p [P H]]. apply rbind_Ok in H. destruct H as [q [Q H]].
      apply (f_equal (fun r => match r with Ok z => z | Err _ => false end)) in H.
      exists s, d, s', d'. split; [exact H1|]. split; [exact H2|].
      split; [apply (conv_all to_double number d to_double_iff); eauto|].
      split; [apply (conv_all to_double number d' to_double_iff); eauto|].
      destruct C as [C|[C|C]].
      - left. split; [exact C|]. apply (pairs_conv to_double isclose close_elts d d' p q 1 close_elts_iff P Q); [|exact H].
        rewrite L1, L2, C. lia.
      - right. right. split; [exact C|].
        apply (pairs_conv_r to_double isclose close_elts d d' p q (prod s') close_elts_iff P Q); [|exact H].
        rewrite L1, L2, C. cbn. lia.
      - right. left. split; [exact C|].
        apply (pairs_conv to_double isclose close_elts d d' p q (prod s) close_elts_iff P Q); [|exact H].
        rewrite L1, L2, C. cbn. lia. }
    unfold allclose in H3. cbn [fst snd] in H3. destruct s as [|n s0]; [apply (K true); auto|].
    destruct s' as [|n' s0']; [apply (K true); auto|].
    destruct (shape_eqb (n :: s0) (n' :: s0')) eqn:SE; [|discriminate]. apply shape_eqb_eq in SE.
    apply (K true); auto.
  - intros [s [d [s' [d' [H1 [H2 [N1 [N2 H3]]]]]]]]. exists (s, d), (s', d').
    assert (L1 := content_size _ _ _ PV H1). assert (L2 := content_size _ _ _ PW H2).
    apply squeezed_iff in H1. apply squeezed_iff in H2. split; [exact H1|]. split; [exact H2|].
    apply (conv_all to_double number d to_double_iff) in N1. apply (conv_all to_double number d' to_double_iff) in N2.
    destruct N1 as [p P]. destruct N2 as [q Q].
    assert (K : all_pairs isclose p q = true).
    { destruct H3 as [[C H]|[[C H]|[C H]]].
      - apply (pairs_conv to_double isclose close_elts d d' p q 1 close_elts_iff P Q); [|exact H]. rewrite L1, L2, C. lia.
      - apply (pairs_conv to_double isclose close_elts d d' p q (prod s) close_elts_iff P Q); [|exact H]. rewrite L1, L2, C. cbn. lia.
      - apply (pairs_conv_r to_double isclose close_elts d d' p q (prod s') close_elts_iff P Q); [|exact H]. rewrite L1, L2, C. cbn. lia. }
    unfold allclose. cbn [fst snd]. rewrite P, Q. cbn [rbind]. rewrite K.
    destruct s as [|n s0]; [reflexivity|]. destruct s' as [|n' s0']; [reflexivity|].
    destruct H3 as [[C H]|[[C H]|[C H]]]; try discriminate. rewrite (proj2 (shape_eqb_eq _ _) C). reflexivity.
Qed.

Lemma same_texts_iff v w : plain_value v -> plain_value w ->
  ((exists p q, squeezed v = Ok p /\ squeezed w = Ok q /\ same_strings p q = Ok true) <-> same_texts v w).
Proof.
  intros PV PW. split.
  - intros [[s d] [[s' d'] [H1 [H2 H3]]]]. apply squeezed_iff in H1. apply squeezed_iff in H2.
    assert (L1 := content_size _ _ _ PV H1). assert (L2 := content_size _ _ _ PW H2).
    unfold same_strings in H3. cbn [fst snd] in H3.
    apply rbind_Ok in H3. destruct H3 as [p [P H3]]. apply rbind_Ok in H3. destruct H3 as [q [Q H3]].
    destruct (broadcasts s s') eqn:BR; [|discriminate].
    apply (f_equal (fun r => match r with Ok z => z | Err _ => false end)) in H3.
    exists s, d, s', d'. split; [exact H1|]. split; [exact H2|].
    split; [apply text_all; eauto|]. split; [apply text_all; eauto|].
    apply broadcasts_iff in BR. destruct BR as [[pre B]|[pre B]]; [left|right]; exists pre; (split; [exact B|]).
    + apply (pairs_conv to_bytes String.eqb same_text d d' p q (prod pre) same_text_iff P Q); [|exact H3].
      rewrite L1, L2, B, prod_app. reflexivity.
    + apply (pairs_conv_r to_bytes String.eqb same_text d d' p q (prod pre) same_text_iff P Q); [|exact H3].
      rewrite L1, L2, B, prod_app. reflexivity.
  - intros [s [d [s' [d' [H1 [H2 [N1 [N2 H3]]]]]]]]. exists (s, d), (s', d').
    assert (L1 := content_size _ _ _ PV H1). assert (L2 := content_size _ _ _ PW H2).
    apply squeezed_iff in H1. apply squeezed_iff in H2. split; [exact H1|]. split; [exact H2|].
    apply text_all in N1. apply text_all in N2. destruct N1 as [p P]. destruct N2 as [q Q].
    unfold same_strings. cbn [fst snd]. rewrite P, Q. cbn [rbind].
    assert (BR : broadcasts s s' = true).
    { apply broadcasts_iff. destruct H3 as [[pre [C _]]|[pre [C _]]]; eauto. }
    rewrite BR. f_equal. destruct H3 as [[pre [C H]]|[pre [C H]]].
    + apply (pairs_conv to_bytes String.eqb same_text d d' p q (prod pre) same_text_iff P Q); [|exact H].
      rewrite L1, L2, C, prod_app. reflexivity.
    + apply (pairs_conv_r to_bytes String.eqb same_text d d' p q (prod pre) same_text_iff P Q); [|exact H].
      rewrite L1, L2, C, prod_app. reflexivity.
Qed.

(** ** One entry *)
Lemma compare_key_iff a b k : (forall v, dget k (pub a) = Some v -> plain_value v) ->
  (forall v, dget k (pub b) = Some v -> plain_value v) ->
  (compare_key a b k = Ok None <->
   exists t v w, typed a k t /\ typed b k t /\ dget k (pub a) = Some v /\ dget k (pub b) = Some w
      /\ same_values t v w).
Proof.
  intros PA PB. unfold compare_key, getattr, entry_type, dgetE. split.
  - intro H. destruct (dget k (pub a)) as [v|] eqn:GA; [|destruct (smem k class_attrs); discriminate].
    destruct (dget k (pub b)) as [w|] eqn:GB; [|destruct (smem k class_attrs); discriminate].
    cbn [rbind] in H. destruct (dget k (conv a)) as [ea|] eqn:CA; [|discriminate].
    destruct (dget k (conv b)) as [eb|] eqn:CB; [|discriminate]. cbn [rbind] in H.
    assert (PV := PA v eq_refl). assert (PW := PB w eq_refl).
    assert (T : forall t, e_type ea = t -> e_type eb = t -> same_values t v w ->
      exists t v0 w0, typed a k t /\ typed b k t /\ Some v = Some v0 /\ Some w = Some w0 /\ same_values t v0 w0).
    { intros t T1 T2 S. exists t, v, w. split; [exists ea; auto|]. split; [exists eb; auto|]. auto. }
    destruct (String.eqb (e_type ea) "attribute" && String.eqb (e_type eb) "attribute") eqn:B1.
    { apply andb_true_iff in B1. rewrite !String.eqb_eq in B1. destruct B1 as [B1 B2].
      apply (T "attribute" B1 B2). apply rbind_Ok in H. destruct H as [r [S H]]. destruct r; [|discriminate].
      destruct v, w; try discriminate. cbn in S. injection S as S. apply String.eqb_eq in S. subst.
      eapply sv_attr; reflexivity. }
    destruct (String.eqb (e_type ea) "double" && String.eqb (e_type eb) "double") eqn:B3.
    { apply andb_true_iff in B3. rewrite !String.eqb_eq in B3. destruct B3 as [B3 B4].
      apply (T "double" B3 B4). apply rbind_Ok in H. destruct H as [p [P H]]. apply rbind_Ok in H. destruct H as [q [Q H]].
      apply rbind_Ok in H. destruct H as [r [S H]]. destruct r; [|discriminate].
      apply sv_double; [reflexivity|]. apply same_numbers_iff; [exact PV|exact PW|]. eauto. }
    destruct (String.eqb (e_type ea) "string" && String.eqb (e_type eb) "string") eqn:B5; [|discriminate].
    apply andb_true_iff in B5. rewrite !String.eqb_eq in B5. destruct B5 as [B5 B6].
    apply (T "string" B5 B6). apply rbind_Ok in H. destruct H as [p [P H]]. apply rbind_Ok in H. destruct H as [q [Q H]].
    apply rbind_Ok in H. destruct H as [r [S H]]. destruct r; [|discriminate].
    apply sv_string; [reflexivity|]. apply same_texts_iff; [exact PV|exact PW|]. eauto.
  - intros [t [v [w [[ea [CA TA]] [[eb [CB TB]] [GA [GB S]]]]]]]. rewrite GA, GB, CA, CB. cbn [rbind]. rewrite TA, TB.
    destruct S as [b1 b2 s -> -> ->| -> S | -> S].
    + cbn. rewrite String.eqb_refl. reflexivity.
    + cbn -[squeezed allclose].
      apply same_numbers_iff in S; [|apply PA; exact GA|apply PB; exact GB].
      destruct S as [p [q [P [Q S]]]]. rewrite P, Q. cbn [rbind]. rewrite S. reflexivity.
    + cbn -[squeezed same_strings].
      apply same_texts_iff in S; [|apply PA; exact GA|apply PB; exact GB].
      destruct S as [p [q [P [Q S]]]]. rewrite P, Q. cbn [rbind]. rewrite S. reflexivity.
Qed.

(** ** Selected entries *)
Lemma rfilter_spec {A} (f : A -> res bool) l : forall r, rfilter f l = Ok r ->
  (forall x, In x r <-> In x l /\ f x = Ok true) /\ (NoDup l -> NoDup r).
Proof.
  induction l as [|y l IH]; intros r H; cbn [rfilter] in H.
  - inversion H; subst. split; [cbn; tauto|auto].
  - apply rbind_Ok in H. destruct H as [b [F H]]. apply rbind_Ok in H. destruct H as [r' [R H]]. inversion H; subst.
    destruct (IH r' R) as [I1 I2]. split.
    + intro x. destruct b; cbn [In]; rewrite I1.
      * split; [intros [->|[K1 K2]]; auto|]. intros [[->|K1] K2]; auto.
      * split; [intros [K1 K2]; auto|]. intros [[->|K1] K2]; [congruence|auto].
    + intro N. inversion N as [|? ? N1 N2]; subst. destruct b; [|auto]. constructor; [|auto]. rewrite I1. tauto.
Qed.

Lemma rfilter_ok {A} (f : A -> res bool) l : (forall x, In x l -> exists b, f x = Ok b) -> exists r, rfilter f l = Ok r.
Proof.
  induction l as [|y l IH]; intro H; [cbn; eauto|]. cbn [rfilter]. destruct (H y (or_introl eq_refl)) as [b ->].
  destruct (IH (fun x I => H x (or_intror I))) as [r ->]. cbn. eauto.
Qed.

Lemma contains_iff s t : contains s t = true <-> exists p q, t = p +++ s +++ q.
Proof.
  split.
  - induction t as [|c t IH]; intro H.
    + exists "", "". cbn [contains] in H. rewrite orb_false_r in H. apply prefix_spec in H.
      destruct H as [r H]. destruct s; [reflexivity|discriminate].
    + cbn [contains] in H. apply orb_true_iff in H. destruct H as [H|H].
      * apply prefix_spec in H. destruct H as [r H]. exists "", r. exact H.
      * destruct (IH H) as [p [q ->]]. exists (String c p), q. reflexivity.
  - intros [p [q ->]]. apply contains_app, contains_prefix.
Qed.

Lemma public_keys_iff o k : In k (public_keys o) <-> contained o k /\ forall r, k <> "_" +++ r.
Proof.
  unfold public_keys. rewrite filter_In, negb_true_iff. split; intros [H1 H2]; (split; [exact H1|]).
  - intros r R. assert (X : startswith "_" k = true) by (apply prefix_spec; eauto). congruence.
  - destruct (startswith "_" k) eqn:X; [|reflexivity]. apply prefix_spec in X. destruct X as [r ->]. exfalso. eapply H2; reflexivity.
Qed.

Lemma select_spec x s o l : option_of x s -> NoDup (dkeys (pub o)) -> select s o = Ok l ->
  NoDup l /\ forall k, In k l <-> compared x o k.
Proof.
  intros OX ND H. assert (NP : NoDup (public_keys o)) by (apply NoDup_filter; exact ND).
  assert (FI : forall f P, (forall k, f k = true <-> P k) -> NoDup (filter (fun k => negb (f k)) (public_keys o))
    /\ forall k, In k (filter (fun k => negb (f k)) (public_keys o)) <-> contained o k /\ (forall r, k <> "_" +++ r) /\ ~ P k).
  { intros f P FP. split; [apply NoDup_filter; exact NP|]. intro k. rewrite filter_In, public_keys_iff, negb_true_iff.
    rewrite <- (FP k). destruct (f k); intuition congruence. }
  unfold select in H. destruct s as [s|].
  2: { destruct x; try destruct OX. inversion H; subst. split; [exact NP|]. intro k. rewrite public_keys_iff. unfold compared. cbn. tauto. }
  destruct x; cbn in OX; [destruct OX| | |]; rewrite OX in H.
  - rewrite String.eqb_refl in H. inversion H; subst. apply (FI (startswith "GLOBAL_") (fun k => exists r, k = "GLOBAL_" +++ r)).
    intro k. apply prefix_spec.
  - cbn [String.eqb Ascii.eqb Bool.eqb] in H.
    destruct (rfilter_spec _ _ _ H) as [R1 R2]. split; [auto|]. intro k. rewrite R1, public_keys_iff. unfold compared, excluded.
    unfold entry_type, dgetE. split.
    + intros [[K1 K2] K3]. split; [exact K1|]. split; [exact K2|]. intros [e [D T]]. rewrite D in K3. cbn in K3.
      rewrite T in K3. discriminate.
    + intros [K1 [K2 K3]]. split; [auto|].
      assert (X : exists b, (let? t := entry_type o k in Ok (negb (String.eqb t "attribute"))) = Ok b).
      { clear - H K1 K2. assert (I : In k (public_keys o)) by (apply public_keys_iff; auto). revert l H I.
        induction (public_keys o) as [|y m IH]; intros l H I; [destruct I|]. cbn [rfilter] in H.
        apply rbind_Ok in H. destruct H as [b [F H]]. apply rbind_Ok in H. destruct H as [r [R H]].
        destruct I as [->|I]; [eauto|]. eapply IH; eassumption. }
      destruct X as [b X]. unfold entry_type, dgetE in X. destruct (dget k (conv o)) as [e|] eqn:D; [|discriminate].
      cbn. destruct (String.eqb_spec (e_type e) "attribute") as [T|T]; [|reflexivity]. exfalso. apply K3. exists e. auto.
  - cbn [String.eqb Ascii.eqb Bool.eqb] in H. inversion H; subst.
    apply (FI (contains "Date") (fun k => exists p q, k = p +++ "Date" +++ q)). intro k. apply contains_iff.
Qed.

Lemma select_ok x s o : option_of x s -> (x = ExAttr -> all_typed o) -> exists l, select s o = Ok l.
Proof.
  intros OX AT. unfold select. destruct s as [s|]; [|eauto].
  destruct x; cbn in OX; [destruct OX| | |]; rewrite OX; cbn [String.eqb Ascii.eqb Bool.eqb]; eauto.
  apply rfilter_ok. intros k K. apply public_keys_iff in K. destruct (AT eq_refl k (proj1 K)) as [t [e [D T]]].
  unfold entry_type, dgetE. rewrite D. cbn. eauto.
Qed.

(** ** All entries *)
Lemma compare_keys_true a b v l : forall acc,
  snd (compare_keys a b v l acc) = Ok true <-> acc = true /\ forall k, In k l -> compare_key a b k = Ok None.
Proof.
  induction l as [|k l IH]; intro acc; cbn [compare_keys].
  - cbn. split; [intro H; inversion H; split; [reflexivity|intros ? []]|intros [-> _]; reflexivity].
  - destruct (compare_key a b k) as [[msg|]|e] eqn:C.
    + specialize (IH false). destruct (compare_keys a b v l false) as [ev r]. cbn in *. split.
      * intro H. apply IH in H. destruct H. discriminate.
      * intros [_ H]. specialize (H k (or_introl eq_refl)). congruence.
    + rewrite IH. split; intros [H1 H2]; (split; [exact H1|]).
      * intros j [<-|J]; [exact C|exact (H2 j J)].
      * intros j J. apply H2. right. exact J.
    + cbn. split; [discriminate|]. intros [_ H]. specialize (H k (or_introl eq_refl)). congruence.
Qed.

Lemma compare_keys_ok a b v l : forall acc,
  is_ok (snd (compare_keys a b v l acc)) = true <-> forall k, In k l -> is_ok (compare_key a b k) = true.
Proof.
  induction l as [|k l IH]; intro acc; cbn [compare_keys].
  - cbn. split; [intros _ ? []|reflexivity].
  - destruct (compare_key a b k) as [[msg|]|e] eqn:C.
    + specialize (IH false). destruct (compare_keys a b v l false) as [ev r]. cbn in *. rewrite IH. split.
      * intros H j [<-|J]; [rewrite C; reflexivity|exact (H j J)].
      * intros H j J. apply H. right. exact J.
    + rewrite IH. split.
      * intros H j [<-|J]; [rewrite C; reflexivity|exact (H j J)].
      * intros H j J. apply H. right. exact J.
    + cbn. split; [discriminate|]. intro H. specialize (H k (or_introl eq_refl)). rewrite C in H. discriminate.
Qed.

Lemma names_check (ka kb : list string) : NoDup ka -> NoDup kb ->
  (negb (Nat.eqb (List.length ka) (List.length kb)) = false
   /\ negb (forallb (fun k => smem k kb) ka && forallb (fun k => smem k ka) kb) = false)
  <-> forall k, In k ka <-> In k kb.
Proof.
  intros NA NB. rewrite !negb_false_iff, andb_true_iff, !forallb_forall, Nat.eqb_eq. split.
  - intros [_ [H1 H2]] k. split; intro K; apply smem_In; auto.
  - intro H. split; [|split; intros k K; apply smem_In; apply H; exact K].
    apply Permutation_length. apply NoDup_Permutation; assumption.
Qed.

Lemma equals_cases a b v x s ka kb : option_of x s -> NoDup (dkeys (pub a)) -> NoDup (dkeys (pub b)) ->
  select s a = Ok ka -> select s b = Ok kb ->
  ((forall k, compared x a k <-> compared x b k) /\ equals a b v s = compare_keys a b v ka true)
  \/ (~ (forall k, compared x a k <-> compared x b k) /\ snd (equals a b v s) = Ok false).
Proof.
  intros OX NA NB SA SB. destruct (select_spec x s a ka OX NA SA) as [DA IA].
  destruct (select_spec x s b kb OX NB SB) as [DB IB].
  unfold equals. rewrite SA, SB. assert (NC := names_check ka kb DA DB).
  assert (EQ : (forall k, In k ka <-> In k kb) <-> forall k, compared x a k <-> compared x b k).
  { split; intros H k; [rewrite <- IA, <- IB|rewrite IA, IB]; apply H. }
  rewrite EQ in NC.
  destruct (negb (Nat.eqb _ _)); [right; split; [intro H; apply NC in H; destruct H; discriminate|reflexivity]|].
  destruct (negb (_ && _)); [right; split; [intro H; apply NC in H; destruct H; discriminate|reflexivity]|].
  left. split; [apply NC; auto|reflexivity].
Qed.

Lemma equals_true_iff a b v x s : option_of x s -> dicts_ok a -> dicts_ok b -> plain a -> plain b ->
  (x = ExAttr -> all_typed a /\ all_typed b) ->
  (snd (equals a b v s) = Ok true <-> same_content x a b).
Proof.
  intros OX [NA _] [NB _] PA PB AT.
  destruct (select_ok x s a OX (fun e => proj1 (AT e))) as [ka SA].
  destruct (select_ok x s b OX (fun e => proj2 (AT e))) as [kb SB].
  destruct (select_spec x s a ka OX NA SA) as [_ IA].
  assert (CK : forall k, compare_key a b k = Ok None <-> exists t v w, typed a k t /\ typed b k t /\ dget k (pub a) = Some v /\ dget k (pub b) = Some w
      /\ same_values t v w) by (intro k; apply compare_key_iff; [apply PA|apply PB]).
  destruct (equals_cases a b v x s ka kb OX NA NB SA SB) as [[N ->]|[N ->]].
  - rewrite compare_keys_true. split.
    + intros [_ H]. split; [exact N|]. intros k K. apply CK, H. apply IA. exact K.
    + intros [_ H]. split; [reflexivity|]. intros k K. apply CK, H. apply IA. exact K.
  - split; [discriminate|]. intros [S _]. contradiction.
Qed.

Lemma equals_ok_iff a b v x s : option_of x s -> NoDup (dkeys (pub a)) -> NoDup (dkeys (pub b)) ->
  (is_ok (snd (equals a b v s)) = true <->
   (exists ka, select s a = Ok ka) /\ (exists kb, select s b = Ok kb)
   /\ ((forall k, compared x a k <-> compared x b k) -> forall k, compared x a k -> is_ok (compare_key a b k) = true)).
Proof.
  intros OX NA NB.
  destruct (select s a) as [ka|e] eqn:SA.
  2: { unfold equals. rewrite SA. cbn. split; [discriminate|]. intros [[ka K] _]. discriminate. }
  destruct (select s b) as [kb|e] eqn:SB.
  2: { unfold equals. rewrite SA, SB. cbn. split; [discriminate|]. intros [_ [[kb K] _]]. discriminate. }
  destruct (select_spec x s a ka OX NA SA) as [_ IA].
  destruct (equals_cases a b v x s ka kb OX NA NB SA SB) as [[N ->]|[N ->]].
  - rewrite compare_keys_ok. split.
    + intro H. split; [eauto|]. split; [eauto|]. intros _ k K. apply H. apply IA. exact K.
    + intros [_ [_ H]] k K. apply H; [exact N|]. apply IA. exact K.
  - split; [|reflexivity]. intros _. split; [eauto|]. split; [eauto|]. intro H. contradiction.
Qed.

Lemma agree_of r r' : (r = Ok true <-> r' = Ok true) -> (is_ok r = true <-> is_ok r' = true) -> agree r r'.
Proof.
  destruct r as [[|]|e], r' as [[|]|e']; cbn; intros [H1 H2] [H3 H4]; try reflexivity; try exact I;
    try (discriminate (H1 eq_refl)); try (discriminate (H2 eq_refl)); try (discriminate (H3 eq_refl)); try (discriminate (H4 eq_refl)).
Qed.

Lemma equals_true_raw a b v x s : option_of x s -> NoDup (dkeys (pub a)) -> NoDup (dkeys (pub b)) ->
  (snd (equals a b v s) = Ok true <->
   (exists ka, select s a = Ok ka) /\ (exists kb, select s b = Ok kb)
   /\ (forall k, compared x a k <-> compared x b k) /\ forall k, compared x a k -> compare_key a b k = Ok None).
Proof.
  intros OX NA NB.
  destruct (select s a) as [ka|e] eqn:SA.
  2: { unfold equals. rewrite SA. cbn. split; [discriminate|]. intros [[ka K] _]. discriminate. }
  destruct (select s b) as [kb|e] eqn:SB.
  2: { unfold equals. rewrite SA, SB. cbn. split; [discriminate|]. intros [_ [[kb K] _]]. discriminate. }
  destruct (select_spec x s a ka OX NA SA) as [_ IA].
  destruct (equals_cases a b v x s ka kb OX NA NB SA SB) as [[N ->]|[N ->]].
  - rewrite compare_keys_true. split.
    + intros [_ H]. split; [eauto|]. split; [eauto|]. split; [exact N|]. intros k K. apply H. apply IA. exact K.
    + intros [_ [_ [_ H]]]. split; [reflexivity|]. intros k K. apply H. apply IA. exact K.
  - split; [discriminate|]. intros [_ [_ [H _]]]. contradiction.
Qed.

Lemma compare_key_ext a b a' b' k :
  dget k (pub a) = dget k (pub a') -> dget k (conv a) = dget k (conv a') ->
  dget k (pub b) = dget k (pub b') -> dget k (conv b) = dget k (conv b') ->
  compare_key a b k = compare_key a' b' k.
Proof. intros H1 H2 H3 H4. unfold compare_key, getattr, entry_type, dgetE. rewrite H1, H2, H3, H4. reflexivity. Qed.

Lemma equals_ext x s a b a' b' v v' : option_of x s ->
  NoDup (dkeys (pub a)) -> NoDup (dkeys (pub b)) -> NoDup (dkeys (pub a')) -> NoDup (dkeys (pub b')) ->
  (x = ExAttr -> all_typed a /\ all_typed b /\ all_typed a' /\ all_typed b') ->
  (forall k, compared x a k <-> compared x a' k) -> (forall k, compared x b k <-> compared x b' k) ->
  (forall k, compared x a k -> dget k (pub a) = dget k (pub a') /\ dget k (conv a) = dget k (conv a')) ->
  (forall k, compared x b k -> dget k (pub b) = dget k (pub b') /\ dget k (conv b) = dget k (conv b')) ->
  agree (snd (equals a b v s)) (snd (equals a' b' v' s)).
Proof.
  intros OX NA NB NA' NB' AT SA SB DA DB.
  assert (AT' : forall o, (x = ExAttr -> all_typed o) -> (exists l, select s o = Ok l) <-> True).
  { intros o H. split; [tauto|]. intros _. eapply select_ok; eassumption. }
  assert (CK : forall k, compared x a k -> compared x b k -> compare_key a b k = compare_key a' b' k).
  { intros k K1 K2. destruct (DA k K1), (DB k K2). apply compare_key_ext; assumption. }
  assert (N : (forall k, compared x a k <-> compared x b k) <-> (forall k, compared x a' k <-> compared x b' k)).
  { split; intros H k; [rewrite <- SA, <- SB|rewrite SA, SB]; apply H. }
  apply agree_of.
  - rewrite (equals_true_raw a b v x s OX NA NB), (equals_true_raw a' b' v' x s OX NA' NB').
    rewrite !AT' by (intro e; destruct (AT e) as [? [? [? ?]]]; assumption). rewrite <- N. split; intros [_ [_ [H1 H2]]];
      (split; [exact I|]); (split; [exact I|]); (split; [exact H1|]); intros k K.
    + apply SA in K. rewrite <- CK; auto. apply H1. exact K.
    + rewrite CK; auto. { apply H2. apply SA. exact K. } apply H1. exact K.
  - rewrite (equals_ok_iff a b v x s OX NA NB), (equals_ok_iff a' b' v' x s OX NA' NB').
    rewrite !AT' by (intro e; destruct (AT e) as [? [? [? ?]]]; assumption). rewrite <- N. split; intros [_ [_ H2]];
      (split; [exact I|]); (split; [exact I|]); intros H1 k K; specialize (H2 H1).
    + apply SA in K. rewrite <- CK; auto. apply H1. exact K.
    + rewrite CK; auto. { apply H2. apply SA. exact K. } apply H1. exact K.
Qed.

(** ** Symmetry *)
Lemma close_elts_num p q : close_elts p q -> exists x y, number p x /\ number q y.
Proof. intros [x [y [H1 [H2 _]]]]. eauto. Qed.

Definition swaps (R : elt -> elt -> Prop) (v w : value) : Prop :=
  forall s d s' d' p q, content_of v s d -> content_of w s' d' -> In p d -> In q d' -> R p q -> R q p.

Lemma repeated_swap (R : elt -> elt -> Prop) d d' : List.length d = List.length d' ->
  (forall p q, In p d -> In q d' -> R p q -> R q p) ->
  repeated R d d' -> repeated R d' d.
Proof.
  intros L S H i q p Q P. assert (LT : i < List.length d') by (apply nth_error_Some; congruence).
  rewrite Nat.mod_small in P by lia.
  apply S; [eapply nth_error_In; exact P|eapply nth_error_In; exact Q|].
  apply (H i p q P). rewrite Nat.mod_small by lia. exact Q.
Qed.

Lemma same_numbers_swap v w : plain_value v -> plain_value w ->
  swaps close_elts v w -> same_numbers v w -> same_numbers w v.
Proof.
  intros PV PW SW [s [d [s' [d' [C1 [C2 [N1 [N2 H]]]]]]]].
  assert (SW' : forall p q, In p d -> In q d' -> close_elts p q -> close_elts q p)
    by (intros p q P Q; exact (SW _ _ _ _ _ _ C1 C2 P Q)).
  exists s', d', s, d. repeat (split; [assumption|]).
  destruct H as [[E R]|[[E R]|[E R]]].
  - left. split; [congruence|]. apply repeated_swap; [|exact SW'|exact R].
    rewrite (content_size v s d PV C1), (content_size w s' d' PW C2). congruence.
  - right; right. split; [exact E|]. intros i p q P Q. apply SW'; eauto using nth_error_In.
  - right; left. split; [exact E|]. intros i q p Q P. apply SW'; eauto using nth_error_In.
Qed.

Lemma same_text_sym p q : same_text p q -> same_text q p.
Proof. intros [s [t [m [n [H1 [H2 H3]]]]]]. exists t, s, n, m. auto. Qed.

Lemma same_texts_sym v w : same_texts v w -> same_texts w v.
Proof.
  intros [s [d [s' [d' [C1 [C2 [N1 [N2 H]]]]]]]].
  exists s', d', s, d. repeat (split; [assumption|]).
  destruct H as [[pre [E R]]|[pre [E R]]]; [right|left]; exists pre; (split; [exact E|]);
    intros i p q P Q; apply same_text_sym; eapply R; eassumption.
Qed.

Definition same_ok {A B} (x : res A) (y : res B) := is_ok x = true <-> is_ok y = true.
Lemma rbind_okb {A B} (x : res A) (f : A -> res B) :
  is_ok (let? a := x in f a) = true <-> exists a, x = Ok a /\ is_ok (f a) = true.
Proof. destruct x as [a|e]; cbn; split; [eauto|intros [? [E H]]; inversion E; subst; exact H|discriminate|intros [? [E _]]; discriminate]. Qed.

Lemma shape_eqb_sym s t : shape_eqb s t = shape_eqb t s.
Proof.
  destruct (shape_eqb s t) eqn:E1, (shape_eqb t s) eqn:E2; try reflexivity.
  - apply shape_eqb_eq in E1. subst. assert (X : shape_eqb t t = true) by (apply shape_eqb_eq; reflexivity). congruence.
  - apply shape_eqb_eq in E2. subst. assert (X : shape_eqb s s = true) by (apply shape_eqb_eq; reflexivity). congruence.
Qed.
Lemma broadcasts_sym s t : broadcasts s t = broadcasts t s.
Proof. unfold broadcasts. rewrite orb_comm. f_equal; apply shape_eqb_sym. Qed.

Lemma allclose_ok_sym p q : is_ok (allclose p q) = true -> is_ok (allclose q p) = true.
Proof.
  unfold allclose. intro H.
  assert (X : is_ok (let? x := rmap to_double (snd p) in let? y := rmap to_double (snd q) in Ok (all_pairs isclose x y)) = true ->
              is_ok (let? x := rmap to_double (snd q) in let? y := rmap to_double (snd p) in Ok (all_pairs isclose x y)) = true).
  { destruct (rmap to_double (snd p)), (rmap to_double (snd q)); cbn; auto. }
  destruct (fst p) as [|m s], (fst q) as [|n t]; try (apply X; exact H).
  rewrite shape_eqb_sym. destruct (shape_eqb (m :: s) (n :: t)); [apply X; exact H|reflexivity].
Qed.
Lemma same_strings_ok_sym p q : is_ok (same_strings p q) = true -> is_ok (same_strings q p) = true.
Proof.
  unfold same_strings. rewrite broadcasts_sym. destruct (rmap to_bytes (snd p)), (rmap to_bytes (snd q)); cbn; auto.
  destruct (broadcasts _ _); auto.
Qed.

Lemma compare_key_ok_sym a b k : is_ok (compare_key a b k) = true -> is_ok (compare_key b a k) = true.
Proof.
  unfold compare_key. intro H.
  destruct (getattr a k) as [x|]; [|discriminate]. destruct (getattr b k) as [y|]; [|discriminate].
  destruct (entry_type a k) as [ta|]; [|discriminate]. destruct (entry_type b k) as [tb|]; [|discriminate].
  cbn [rbind] in *.
  rewrite (andb_comm (String.eqb tb "attribute")), (andb_comm (String.eqb tb "double")), (andb_comm (String.eqb tb "string")).
  destruct (_ && _). { destruct x, y; try discriminate. reflexivity. }
  destruct (_ && _).
  { destruct (squeezed x) as [p|]; [|discriminate]. destruct (squeezed y) as [q|]; [|discriminate]. cbn [rbind] in *.
    assert (X := allclose_ok_sym p q). destruct (allclose p q), (allclose q p); try reflexivity; [discriminate (X eq_refl)|discriminate]. }
  destruct (_ && _); [|reflexivity].
  destruct (squeezed x) as [p|]; [|discriminate]. destruct (squeezed y) as [q|]; [|discriminate]. cbn [rbind] in *.
  assert (X := same_strings_ok_sym p q). destruct (same_strings p q), (same_strings q p); try reflexivity; [discriminate (X eq_refl)|discriminate].
Qed.

Lemma equals_sym x s a b v v' : option_of x s -> dicts_ok a -> dicts_ok b -> plain a -> plain b ->
  (forall k va vb, compared x a k -> typed a k "double" -> dget k (pub a) = Some va -> dget k (pub b) = Some vb ->
     swaps close_elts va vb /\ swaps close_elts vb va) ->
  agree (snd (equals a b v s)) (snd (equals b a v' s)).
Proof.
  intros OX [NA _] [NB _] PA PB SW.
  assert (CK : forall k, compared x a k -> compare_key a b k = Ok None <-> compare_key b a k = Ok None).
  { intros k K. rewrite !compare_key_iff by (intros ? ?; first [eapply PA; eassumption|eapply PB; eassumption]).
    split; intros [t [va [vb [T1 [T2 [G1 [G2 S]]]]]]]; exists t, vb, va; repeat (split; [assumption|]).
    - destruct S as [b1 b2 ss -> -> ->| -> S| -> S]; [eapply sv_attr; reflexivity| |apply sv_string; [reflexivity|apply same_texts_sym; exact S]].
      apply sv_double; [reflexivity|]. apply same_numbers_swap; [eapply PA; exact G1|eapply PB; exact G2| |exact S].
      apply (SW k va vb K T1 G1 G2).
    - destruct S as [b1 b2 ss -> -> ->| -> S| -> S]; [eapply sv_attr; reflexivity| |apply sv_string; [reflexivity|apply same_texts_sym; exact S]].
      apply sv_double; [reflexivity|]. apply same_numbers_swap; [eapply PB; exact G1|eapply PA; exact G2| |exact S].
      apply (SW k vb va K T2 G2 G1). }
  apply agree_of.
  - rewrite (equals_true_raw a b v x s OX NA NB), (equals_true_raw b a v' x s OX NB NA).
    split; intros [H1 [H2 [H3 H4]]]; (split; [exact H2|]); (split; [exact H1|]); (split; [intro k; symmetry; apply H3|]);
      intros k K; assert (K' := proj2 (H3 k) K).
    + apply CK; auto.
    + apply CK; [exact K|]. apply H4. exact K'.
  - rewrite (equals_ok_iff a b v x s OX NA NB), (equals_ok_iff b a v' x s OX NB NA).
    split; intros [H1 [H2 H4]]; (split; [exact H2|]); (split; [exact H1|]); intros H3 k K; apply compare_key_ok_sym; apply H4;
      try (intro j; symmetry; apply H3); apply H3; exact K.
Qed.

(** ** Reflexivity *)
Lemma close_refl x : close x x.
Proof.
  destruct x as [s|s| |s m e]; [left; reflexivity| |right; left; auto|].
  - left. destruct s; reflexivity.
  - left. unfold f_eqb, SFeqb, SFcompare. destruct s; rewrite Z.compare_refl, Pos.compare_refl; reflexivity.
Qed.

Lemma content_array a : a_mask a = false ->
  content_of (VArr a) (sh_squeeze (a_shape a)) (a_data a).
Proof. intro M. exists a. split; [reflexivity|]. split; [exact M|]. split; reflexivity. Qed.

Lemma repeated_refl (R : elt -> elt -> Prop) d : (forall p, In p d -> R p p) -> repeated R d d.
Proof.
  intros H i p q P Q. assert (L : i < List.length d) by (apply nth_error_Some; congruence).
  rewrite Nat.mod_small in Q by exact L. rewrite P in Q. inversion Q; subst. apply H. eapply nth_error_In. exact P.
Qed.

Lemma same_numbers_refl v s d : content_of v s d -> (forall p, In p d -> elt_kind p = KI \/ elt_kind p = KF) ->
  same_numbers v v.
Proof.
  intros C K. assert (N : forall p, In p d -> exists x, number p x).
  { intros p P. destruct p; destruct (K _ P) as [X|X]; try discriminate; eexists; constructor. }
  exists s, d, s, d. repeat (split; [assumption|]). left. split; [reflexivity|]. apply repeated_refl.
  intros p P. destruct (N p P) as [x X]. exists x, x. repeat (split; [exact X|]). apply close_refl.
Qed.

Lemma same_texts_refl v s d : content_of v s d -> (forall p, In p d -> exists x, text p x) -> same_texts v v.
Proof.
  intros C N. exists s, d, s, d. repeat (split; [assumption|]). left. exists []. split; [reflexivity|]. apply repeated_refl.
  intros p P. destruct (N p P) as [x X]. exists x, x, 0, 0. auto.
Qed.

Lemma same_values_refl t v : has_type t v -> regular_value v -> (t = "string" -> ascii_value v) -> same_values t v v.
Proof.
  intros [[-> [b [s ->]]]|[[-> H]|[-> H]]] R A.
  - eapply sv_attr; reflexivity.
  - apply sv_double; [reflexivity|]. destruct H as [[z ->]|[[f ->]|[a [-> K]]]].
    + apply (same_numbers_refl _ [] [EInt z]); [exists (scalar_arr (EInt z)); auto|]. intros p [<-|[]]. auto.
    + apply (same_numbers_refl _ [] [EFlt f]); [exists (scalar_arr (EFlt f)); auto|]. intros p [<-|[]]. auto.
    + destruct R as [_ [M R]]. eapply same_numbers_refl; [apply content_array; exact M|]. intros p P. rewrite (R p P). exact K.
  - apply sv_string; [reflexivity|]. specialize (A eq_refl). destruct H as [[b [s ->]]|[a [-> K]]].
    + apply (same_texts_refl _ [] [EStr s]); [exists (scalar_arr (EStr s)); auto|]. intros p [<-|[]]. exists s. constructor. exact A.
    + destruct R as [_ [M R]]. eapply same_texts_refl; [apply content_array; exact M|]. intros p P.
      specialize (R p P). rewrite K in R. destruct p; try discriminate. eexists. constructor. apply A. exact P.
Qed.

Lemma regular_plain v : regular_value v -> plain_value v.
Proof. destruct v; cbn; tauto. Qed.

Lemma same_content_refl x o : (forall k v, dget k (pub o) = Some v -> exists t, typed o k t /\ has_type t v) ->
  regular o -> (forall k v, typed o k "string" -> dget k (pub o) = Some v -> ascii_value v) ->
  same_content x o o.
Proof.
  intros T R A. split; [reflexivity|]. intros k [K _]. apply dget_Some_In in K. destruct K as [v G].
  destruct (T k v G) as [t [T1 T2]]. exists t, v, v. repeat (split; [assumption|]).
  apply same_values_refl; [exact T2|exact (R k v G)|]. intros ->. exact (A k v T1 G).
Qed.

Lemma verified_types E m o o' ev r : db_ok E -> rules_tidy E -> dicts_ok o ->
  verify E HRaise m o = (o', ev, Ok r) -> dicts_ok o' /\ pub o' = pub o /\
  forall k v, dget k (pub o') = Some v -> exists t, typed o' k t /\ has_type t v.
Proof.
  intros DB RT DO H.
  assert (KD := kdict_verify E HRaise m o DO). rewrite H in KD. change (m_obj (o', ev, Ok r)) with o' in KD.
  assert (PP := proj1 (verify_raise_pub (normative_keys E) E m o)). unfold verify in H. rewrite H in PP.
  change (m_obj (o', ev, Ok r)) with o' in PP.
  assert (V : is_ok (m_res (verify E HRaise m o)) = true) by (unfold verify; rewrite H; reflexivity).
  split; [exact KD|]. split; [exact PP|]. intros k v G. rewrite PP in G.
  assert (H0 := H). rewrite verify_gen_eq in H0.
  destruct (reset_none_or E o) as [[e RE]|[o1 RE]].
  { rewrite (bind_fails _ _ _ _ _ _ RE) in H0. discriminate. }
  rewrite (bind_silent _ _ _ _ _ RE) in H0.
  destruct (proj1 (reset_iff E o DB DO) _ RE) as [b [c [w [content [H1 [H2 [H3 H4]]]]]]].
  assert (S := verify_rest_raise (normative_keys E) E m o1). rewrite H0 in S.
  change (m_obj (o', ev, Ok r)) with o' in S. destruct S as [_ S2 _ _].
  assert (VF : valid_for E m o c (py_str E w) (sofar_keys content)).
  { eapply (rest_iff E m _ o _ H4 DB RT DO c (py_str E w) b H1); eauto. rewrite H0. reflexivity. }
  destruct (va_type _ _ _ _ _ _ VF k v G) as [e [D T]]. exists (e_type e). split; [|exact T].
  exists e. split; [|reflexivity]. rewrite S2, (rt_conv _ _ _ H4). exact D.
Qed.

Lemma compare_keys_silent a b v l : forall acc, snd (compare_keys a b v l acc) = Ok true -> fst (compare_keys a b v l acc) = [].
Proof.
  induction l as [|k l IH]; intros acc H; [reflexivity|]. cbn [compare_keys] in *.
  destruct (compare_key a b k) as [[msg|]|e].
  - exfalso. assert (X := compare_keys_true a b v l false). destruct (compare_keys a b v l false) as [ev r].
    cbn in *. apply X in H. destruct H. discriminate.
  - exact (IH acc H).
  - reflexivity.
Qed.
Lemma equals_silent a b v s : snd (equals a b v s) = Ok true -> equals a b v s = ([], Ok true).
Proof.
  intro H. rewrite (surjective_pairing (equals a b v s)), H. f_equal. revert H. unfold equals.
  destruct (select s a); [|discriminate]. destruct (select s b); [|discriminate].
  destruct (negb _); [discriminate|]. destruct (negb _); [discriminate|]. apply compare_keys_silent.
Qed.
