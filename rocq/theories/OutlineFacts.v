(** Facts about objects that differ in their numbers only. *)
From Verif Require Import Base PyStr NdArray Sofa Verify SpecInit SpecVerify SpecOutline BaseFacts.
From Coq Require Import Lia.
Open Scope string_scope.
Open Scope list_scope.
Open Scope nat_scope.

Lemma same_axes_sym s t : same_axes s t -> same_axes t s.
Proof. intros [u|u m n L M N]; [apply axes_same|apply axes_ones; assumption]. Qed.

(** what verification looks at *)
Lemma same_axes_seen s t : same_axes s t ->
  shape4 t = shape4 s /\ prod t = prod s /\ t ++ repeat 1 (4 - List.length t) = s ++ repeat 1 (4 - List.length s).
Proof.
  intros [u|u m n L M N]; [auto|].
  destruct u as [|a [|b u]]; try (cbn [List.length] in L; lia).
  assert (PR : forall j, prod ((a :: b :: u) ++ repeat 1 j) = prod (a :: b :: u)).
  { assert (P1 : forall j, prod (repeat 1 j) = 1) by (induction j as [|j IH]; [reflexivity|]; cbn [repeat prod]; rewrite IH; reflexivity).
    intro j. generalize (a :: b :: u). intro z. induction z as [|x z IH]; cbn [app prod]; [apply P1|rewrite IH; reflexivity]. }
  split; [|split].
  - destruct u as [|c [|d [|e u]]]; cbn [List.length] in M, N; try lia;
      destruct m as [|[|[|m]]]; try lia; destruct n as [|[|[|n]]]; try lia; reflexivity.
  - rewrite !PR. reflexivity.
  - rewrite <- !app_assoc, !app_length, !repeat_length, <- !repeat_app. do 2 f_equal. lia.
Qed.

Lemma ones_seen n : n <= 4 ->
  shape4 (repeat 1 n) = shape4 [] /\ prod (repeat 1 n) = prod [] /\ repeat 1 n ++ repeat 1 (4 - List.length (repeat 1 n)) = [] ++ repeat 1 (4 - 0).
Proof. intro L. destruct n as [|[|[|[|[|n]]]]]; try lia; repeat split; reflexivity. Qed.

Lemma alike_sym v w : alike v w -> alike w v.
Proof.
  intros [u|x y X Y|a b A B H]; [apply alike_same|apply alike_scalars; assumption|].
  apply alike_arrays; [exact B|exact A|apply same_axes_sym; exact H].
Qed.
Lemma similar_sym v w : similar v w -> similar w v.
Proof.
  intros [u z H|x a n X A N S|a x n A X N S]; [apply similar_alike; apply alike_sym; exact H|exact (similar_array a x n A X N S)|exact (similar_scalar x a n X A N S)].
Qed.

Lemma alike_axes v w : alike v w -> same_axes (shape_of v) (shape_of w).
Proof. intros [u|x y X Y|a b A B H]; cbn [shape_of]; [apply axes_same|apply axes_same|exact H]. Qed.
Lemma similar_seen v w : similar v w ->
  shape4 (shape_of w) = shape4 (shape_of v) /\ prod (shape_of w) = prod (shape_of v)
  /\ shape_of w ++ repeat 1 (4 - List.length (shape_of w)) = shape_of v ++ repeat 1 (4 - List.length (shape_of v)).
Proof.
  intros [u z H|x a n X A N S|a x n A X N S]; cbn [shape_of].
  - apply same_axes_seen. apply alike_axes. exact H.
  - rewrite S. destruct (ones_seen n N) as [Q1 [Q2 Q3]]. auto.
  - rewrite S. destruct (ones_seen n N) as [Q1 [Q2 Q3]]. auto.
Qed.

Lemma alike_str v w b s : alike v w -> v = VStr b s -> w = VStr b s.
Proof. intros [u|x y X Y|a c A B H] Q; [exact Q|discriminate Q|discriminate Q]. Qed.
Lemma similar_str v w b s : similar v w -> v = VStr b s -> w = VStr b s.
Proof. intros [u z H|x a n X A N S|a x n A X N S] Q; [exact (alike_str _ _ b s H Q)|discriminate Q|discriminate Q]. Qed.

Lemma numeric_strings a s ls : numeric a -> ~ strings (VArr a) s ls.
Proof.
  intros N H. inversion H as [|a' n rest ls' SA SB ND F]; subst.
  destruct (a_data a) as [|x l] eqn:D; [apply ND; reflexivity|].
  inversion F as [|x' l' y ys [t [T _]] F2]; subst.
  destruct N as [[_ N]|[_ N]]; destruct (N x) as [z Z]; try (rewrite D; left; reflexivity);
    subst x; destruct T as [T|T]; discriminate T.
Qed.

Lemma alike_strings v w s ls : alike v w -> strings v s ls -> strings w s ls.
Proof.
  intros [u|x y X Y|a b A B H] S; [exact S|inversion S|].
  destruct (numeric_strings a s ls A S).
Qed.

Lemma alike_type t v w : alike v w -> has_type t v -> has_type t w.
Proof.
  intros [u|x y X Y|a b A B H] T; [exact T| |].
  - destruct T as [[_ [b [s T]]]|[[T1 T2]|[_ [[b [s T]]|[a [T _]]]]]]; try discriminate T.
    right. left. split; [exact T1|]. destruct Y as [[z ->]|[f ->]]; [left|right; left]; eauto.
  - destruct T as [[_ [c [s T]]]|[[T1 T2]|[T1 T2]]]; [discriminate T| |].
    + right. left. split; [exact T1|]. right. right. exists b. split; [reflexivity|].
      destruct B as [[B _]|[B _]]; rewrite B; auto.
    + destruct T2 as [[c [s T]]|[c [T TK]]]; [discriminate T|]. injection T as <-.
      destruct A as [[A _]|[A _]]; rewrite A in TK; discriminate TK.
Qed.

Lemma similar_strings v w s ls : similar v w -> strings v s ls -> strings w s ls.
Proof.
  intros [u z H|x a n X A N S|a x n A X N S] T; [exact (alike_strings _ _ s ls H T)|inversion T|].
  destruct (numeric_strings a s ls A T).
Qed.
Lemma similar_type t v w : similar v w -> has_type t v -> has_type t w.
Proof.
  intros [u z H|x a n X A N S|a x n A X N S] T; [exact (alike_type t _ _ H T)| |].
  - destruct T as [[_ [b [s T]]]|[[T1 T2]|[_ [[b [s T]]|[c [T _]]]]]]; try discriminate T.
    right. left. split; [exact T1|]. right. right. exists a. split; [reflexivity|]. destruct A as [[A _]|[A _]]; auto.
  - destruct T as [[_ [b [s T]]]|[[T1 T2]|[_ [[b [s T]]|[c [T TK]]]]]]; try discriminate T.
    + right. left. split; [exact T1|]. destruct X as [[z ->]|[f ->]]; [left|right; left]; eauto.
    + injection T as <-. destruct A as [[A _]|[A _]]; rewrite A in TK; discriminate TK.
Qed.

Lemma similar_compared t d v w s : similar v w -> compared_shape t d v s -> compared_shape t d w s.
Proof.
  intros A C. destruct (similar_seen v w A) as [Q1 [Q2 _]]. destruct C as [s ls T S|N1 N2 L|N1 N2 L].
  - apply (cs_string t d w s ls T). apply (similar_strings v w s ls A S).
  - rewrite <- Q1. apply cs_multi; assumption.
  - rewrite <- Q2. apply cs_single; assumption.
Qed.

Lemma outline_similar o o' : same_outline o o' -> similar_outline o o'.
Proof. intros [N V VE C]. split; [exact N| |exact VE|exact C]. intros k v w G H. apply similar_alike. apply (V k v w G H). Qed.
Lemma outline_sym o o' : same_outline o o' -> same_outline o' o.
Proof.
  intros [N V VE C]. split; [congruence| |congruence|congruence].
  intros k v w G H. apply alike_sym. apply (V k w v H G).
Qed.
Lemma similar_outline_sym o o' : similar_outline o o' -> similar_outline o' o.
Proof.
  intros [N V VE C]. split; [congruence| |congruence|congruence].
  intros k v w G H. apply similar_sym. apply (V k w v H G).
Qed.

Section Outline.
Variables (cv : convention) (o o' : sofa).
Hypothesis OL : similar_outline o o'.

Lemma ol_contained k : contained o' k <-> contained o k.
Proof. unfold contained. rewrite (sl_names _ _ OL). reflexivity. Qed.

Lemma ol_get k v : dget k (pub o) = Some v -> exists w, dget k (pub o') = Some w /\ similar v w.
Proof.
  intro G. assert (I : In k (dkeys (pub o'))).
  { rewrite (sl_names _ _ OL). apply dget_Some_In. exists v. exact G. }
  apply dget_Some_In in I. destruct I as [w W]. exists w. split; [exact W|]. apply (sl_values _ _ OL k v w G W).
Qed.

Lemma ol_get' k w : dget k (pub o') = Some w -> exists v, dget k (pub o) = Some v /\ similar v w.
Proof.
  intro G. assert (I : In k (dkeys (pub o))).
  { rewrite <- (sl_names _ _ OL). apply dget_Some_In. exists w. exact G. }
  apply dget_Some_In in I. destruct I as [v V]. exists v. split; [exact V|]. apply (sl_values _ _ OL k v w V G).
Qed.

Lemma ol_own : own_custom cv o' = own_custom cv o.
Proof. unfold own_custom. rewrite (sl_custom _ _ OL). reflexivity. Qed.

Lemma ol_declared k : declared cv o' k = declared cv o k.
Proof. unfold declared. rewrite ol_own. reflexivity. Qed.

Lemma ol_variables : variables cv o' = variables cv o.
Proof.
  unfold variables. rewrite ol_own, (sl_names _ _ OL). f_equal. apply filter_ext. intro k.
  rewrite ol_declared. reflexivity.
Qed.

Lemma ol_states k : states cv o' k = states cv o k.
Proof.
  unfold states. rewrite ol_declared. destruct (declared cv o k) as [e|]; [|reflexivity].
  destruct (dget k (pub o)) as [v|] eqn:G.
  - destruct (ol_get k v G) as [w [W A]]. rewrite W. destruct (e_dims e); [|reflexivity].
    unfold axis. rewrite (proj2 (proj2 (similar_seen v w A))). reflexivity.
  - destruct (dget k (pub o')) as [w|] eqn:W; [|reflexivity].
    destruct (ol_get' k w W) as [v [V _]]. rewrite V in G. discriminate G.
Qed.

Lemma ol_all_states : all_states cv o' = all_states cv o.
Proof. unfold all_states. rewrite ol_variables. apply flat_map_ext. exact ol_states. Qed.

Lemma ol_string_variable k : string_variable cv o' k <-> string_variable cv o k.
Proof. unfold string_variable. rewrite ol_declared, ol_variables. reflexivity. Qed.

Lemma ol_longest n : longest cv o n -> longest cv o' n.
Proof.
  intros [L1 L2]. split.
  - intros k w s ls l K G S. apply ol_string_variable in K. destruct (ol_get' k w G) as [v [V A]].
    apply (L1 k v s ls l K V). apply (similar_strings w v s ls (similar_sym v w A) S).
  - destruct L2 as [L2|[k [v [s [ls [K [G [S I]]]]]]]]; [left; exact L2|right].
    destruct (ol_get k v G) as [w [W A]]. exists k, w, s, ls. apply ol_string_variable in K.
    split; [exact K|]. split; [exact W|]. split; [apply (similar_strings v w s ls A S)|exact I].
Qed.

Lemma ol_size x n : size cv o x n -> size cv o' x n.
Proof.
  unfold size. rewrite ol_all_states. intros [S|[S|[[S1 S2]|S]]]; auto.
  right. right. left. split; [exact S1|]. apply ol_longest. exact S2.
Qed.

Lemma ol_extent x n : extent cv o x n -> extent cv o' x n.
Proof. unfold extent. destruct (Ascii.eqb x "S"); [trivial|apply ol_size]. Qed.

Lemma ol_allowed E key ref : allowed_value E o key ref -> allowed_value E o' key ref.
Proof.
  intros [b [s [G A]]]. exists b, s. destruct (ol_get _ _ G) as [w [W AL]].
  rewrite (similar_str _ _ b s AL eq_refl) in W. split; assumption.
Qed.

(** values that choose dependencies *)
Definition choices_kept (E : env) : Prop :=
  forall k r sp v w, In (k, r) (rules E) -> r_specific r = Some sp ->
    dget (python_name k) (pub o) = Some v -> dget (python_name k) (pub o') = Some w -> alike v w.
Lemma ol_valid E m c v : choices_kept E -> valid_for E m o c v cv -> valid_for E m o' c v cv.
Proof.
  intros CK [V1 V2 V3 V4 V5 V6 V7 V8 V9 V10 V11 V12]. split.
  - destruct V1 as [b B]. destruct (ol_get _ _ B) as [w [W A]]. exists b. rewrite W.
    f_equal. apply (similar_str _ _ b c A eq_refl).
  - rewrite (sl_version _ _ OL). exact V2.
  - exact V3.
  - intros k e. rewrite ol_declared. intros D M. apply ol_contained. apply (V4 k e D M).
  - intros k w G. destruct (ol_get' k w G) as [u [U A]]. destruct (V5 k u U) as [e [D T]].
    exists e. rewrite ol_declared. split; [exact D|]. apply (similar_type _ u w A T).
  - intros k e K. rewrite ol_declared. apply ol_contained in K. intro D. specialize (V6 k e K D).
    destruct V6 as [N1 N2]. split; [|exact N2]. intro T. destruct (N1 T) as [var [a [A1 [A2 A3]]]].
    exists var, a. rewrite ol_declared. auto.
  - unfold no_clash. rewrite (sl_custom _ _ OL), (sl_version _ _ OL), ol_own. exact V7.
  - destruct V8 as [S1 [S2 S3]]. unfold sized. rewrite ol_variables, ol_all_states. split; [|split].
    + intros k K. apply ol_contained. apply (S1 k K).
    + exact S2.
    + intros k K. apply ol_string_variable in K. destruct (S3 k K) as [u [s [ls [G S]]]].
      destruct (ol_get k u G) as [w [W A]]. exists w, s, ls. split; [exact W|apply (similar_strings u w s ls A S)].
  - intros k K. rewrite ol_variables in K. destruct (V9 k K) as [e [d [u [s [pre [alt [post [A1 [A2 [A3 [A4 [A5 [A6 A7]]]]]]]]]]]]].
    destruct (ol_get k u A3) as [w [W A]]. exists e, d, w, s, pre, alt, post. rewrite ol_declared.
    split; [exact A1|]. split; [exact A2|]. split; [exact W|]. split; [apply (similar_compared _ _ u w s A A4)|].
    split; [exact A5|]. split.
    + intros a I x X. destruct (A6 a I x X) as [n N]. exists n. apply ol_extent. exact N.
    + intros i x X. apply ol_extent. apply (A7 i x X).
  - intros k r R w G. destruct (ol_get' _ w G) as [u [U A]]. destruct (V10 k r R u U) as [R1 [R2 R3]]. split; [|split].
    + intros ref RV. apply ol_allowed. apply (R1 ref RV).
    + intros g GI. apply ol_contained. apply (R2 g GI).
    + intros sp SP. destruct (R3 sp SP) as [Q1 Q2]. split.
      * intros a Q. destruct (alike_sym u w (CK k r sp u w R SP U G)) as [z|x y X Y|a1 b1 A1 B1 H]; [apply (Q1 a Q)|discriminate Q|].
        apply (Q1 b1). reflexivity.
      * intros b s items kd Q D I.
        specialize (Q2 b s items kd (similar_str w u b s (similar_sym u w A) Q) D I). unfold dep_ok in *.
        destruct (snd kd) as [l|[ref|]].
        -- intros x ns t XI. destruct (Q2 x ns t XI) as [n [N1 N2]]. exists n. split; [apply ol_size; exact N1|exact N2].
        -- apply ol_allowed. exact Q2.
        -- apply ol_contained. exact Q2.
  - intros M k w G EN. destruct (ol_get' k w G) as [u [U A]]. destruct (V11 M k u U EN) as [b [s [Q L]]].
    exists b, s. split; [apply (similar_str u w b s A Q)|exact L].
  - exact V12.
Qed.
End Outline.

Lemma ol_dicts o o' : similar_outline o o' -> dicts_ok o -> dicts_ok o'.
Proof. intros OL [D1 D2]. split; [rewrite (sl_names _ _ OL); exact D1|rewrite (sl_custom _ _ OL); exact D2]. Qed.
