(** Laws of the functions of Python and numpy in the model.

    The statements of the properties use the functions of PyStr, PyNum and NdArray for texts,
    version numbers and shapes. Here they are characterized without reference to their definitions,
    as described in the documentation of Python. *)
From Coq Require Import NArith ZArith QArith Lia.
From Verif Require Import Base BaseFacts StrFacts RoundFacts EqualsFacts IoFacts CsvFacts UpdateFacts.
From Verif Require Import SpecUpgrade AxisFacts PyStr PyNum NdArray.
Open Scope string_scope.
Open Scope list_scope.
Open Scope nat_scope.

(** ** Parts of texts *)
Theorem law_startswith : forall p s, startswith p s = true <-> exists r, s = p +++ r.
Proof. exact prefix_spec. Qed.
Theorem law_endswith : forall p s, endswith p s = true <-> exists r, s = r +++ p.
Proof. exact endswith_iff. Qed.
Theorem law_contains : forall p s, contains p s = true <-> exists a b, s = a +++ p +++ b.
Proof. exact contains_iff. Qed.
Theorem law_has_char : forall c s, has_char c s = true <-> In c (chars s).
Proof.
  intros c s. induction s as [|d s IH]; cbn [has_char chars list_ascii_of_string]; [split; [discriminate|intros []]|].
  rewrite orb_true_iff, IH, Ascii.eqb_eq. split; (intros [H|H]; [left; auto|right; exact H]).
Qed.
Theorem law_count : forall c s, count_char c s = count_occ Ascii.ascii_dec (chars s) c.
Proof.
  intros c s. induction s as [|d s IH]; [reflexivity|]. cbn [count_char chars list_ascii_of_string count_occ].
  destruct (Ascii.ascii_dec d c) as [->|N].
  - rewrite Ascii.eqb_refl, IH. reflexivity.
  - destruct (Ascii.eqb c d) eqn:Q; [apply Ascii.eqb_eq in Q; congruence|]. exact IH.
Qed.

(** ** Slices *)
Theorem law_slices : forall n s,
  stake n s +++ sdrop n s = s /\ String.length (stake n s) = Nat.min n (String.length s).
Proof.
  induction n as [|n IH]; intro s; [destruct s; split; reflexivity|]. destruct s as [|c s]; [split; reflexivity|].
  destruct (IH s) as [H1 H2]. cbn [stake sdrop append String.length]. rewrite H1, H2. split; reflexivity.
Qed.
Theorem law_drop_end : forall n s, n <= String.length s ->
  exists r, s = drop_end n s +++ r /\ String.length r = n.
Proof.
  intros n s L. unfold drop_end. exists (sdrop (String.length s - n) s).
  destruct (law_slices (String.length s - n) s) as [H1 H2]. split; [symmetry; exact H1|].
  apply (f_equal String.length) in H1. rewrite slength_app, H2 in H1. lia.
Qed.
Theorem law_last : forall c s,
  (has_char c s = false -> before_last c s = None /\ after_last c s = s)
  /\ (forall a b, s = a +++ String c b -> has_char c b = false -> before_last c s = Some a /\ after_last c s = b).
Proof.
  intros c s. split.
  - intro H. split.
    + induction s as [|d s IH]; [reflexivity|]. cbn [has_char] in H. apply orb_false_iff in H. destruct H as [H1 H2].
      cbn [before_last]. rewrite (IH H2), H1. reflexivity.
    + destruct s as [|d s]; [reflexivity|]. cbn [has_char] in H. apply orb_false_iff in H. destruct H as [H1 H2].
      cbn [after_last]. rewrite H2, H1. reflexivity.
  - intros a b -> H. split; [apply before_last_app; exact H|apply after_last_app; exact H].
Qed.

(** ** replace and split: determined by the first occurrence *)
(** [sep] begins after [a] in [s] and not earlier *)
Definition first_at (sep a b s : string) : Prop :=
  s = a +++ sep +++ b /\ forall a' b', s = a' +++ sep +++ b' -> String.length a <= String.length a'.
Definition nowhere (sep s : string) : Prop := forall a b, s <> a +++ sep +++ b.

Lemma first_tail sep c a b s : first_at sep (String c a) b (String c s) -> first_at sep a b s.
Proof.
  intros [H1 H2]. injection H1 as H1. split; [exact H1|]. intros a' b' Q.
  specialize (H2 (String c a') b'). rewrite Q in H2. specialize (H2 eq_refl). cbn in H2. lia.
Qed.
Lemma nowhere_tail sep c s : nowhere sep (String c s) -> nowhere sep s.
Proof. intros H a b Q. apply (H (String c a) b). rewrite Q. reflexivity. Qed.
Lemma nowhere_prefix sep s : nowhere sep s -> String.prefix sep s = false.
Proof.
  intro H. destruct (String.prefix sep s) eqn:P; [|reflexivity]. apply prefix_spec in P. destruct P as [r Q].
  exfalso. exact (H "" r Q).
Qed.
Lemma first_prefix sep c a b s : first_at sep (String c a) b s -> String.prefix sep s = false.
Proof.
  intros [_ H]. destruct (String.prefix sep s) eqn:P; [|reflexivity]. apply prefix_spec in P. destruct P as [r Q].
  specialize (H "" r Q). cbn in H. lia.
Qed.
Lemma prefix_app p r : String.prefix p (p +++ r) = true.
Proof. apply prefix_spec. eauto. Qed.

Lemma replace_skip old new a b : replace_aux old new (a +++ b) (String.length a) = replace_aux old new b 0.
Proof. induction a as [|c a IH]; [destruct b; reflexivity|]. exact IH. Qed.
Lemma split_skip sep a b : PyStr.split_aux sep (a +++ b) (String.length a) = PyStr.split_aux sep b 0.
Proof. induction a as [|c a IH]; [destruct b; reflexivity|]. exact IH. Qed.

Theorem law_replace : forall old new s, old <> "" ->
  (nowhere old s -> replace old new s = s)
  /\ (forall a b, first_at old a b s -> replace old new s = a +++ new +++ replace old new b).
Proof.
  intros old new s NE. unfold replace. split.
  - induction s as [|c s IH]; intro H; [reflexivity|]. cbn [replace_aux]. rewrite (nowhere_prefix _ _ H).
    rewrite IH by (apply (nowhere_tail _ _ _ H)). reflexivity.
  - intros a. revert s. induction a as [|c a IH]; intros s b F.
    + destruct F as [-> _]. destruct old as [|d old]; [congruence|]. cbn [append replace_aux].
      change (String d (old +++ b)) with (String d old +++ b). rewrite prefix_app. cbn [String.length].
      rewrite Nat.sub_succ, Nat.sub_0_r, replace_skip. reflexivity.
    + assert (P := first_prefix _ _ _ _ _ F). destruct F as [F1 F2]. rewrite F1 in *. cbn [append] in *. cbn [replace_aux]. rewrite P.
      f_equal. apply IH. apply (first_tail _ c). split; [reflexivity|exact F2].
Qed.
Theorem law_split : forall sep s, sep <> "" ->
  (nowhere sep s -> split sep s = [s])
  /\ (forall a b, first_at sep a b s -> split sep s = a :: split sep b).
Proof.
  intros sep s NE. unfold split. split.
  - induction s as [|c s IH]; intro H; [reflexivity|]. cbn [PyStr.split_aux]. rewrite (nowhere_prefix _ _ H).
    rewrite IH by (apply (nowhere_tail _ _ _ H)). reflexivity.
  - intros a. revert s. induction a as [|c a IH]; intros s b F.
    + destruct F as [-> _]. destruct sep as [|d sep]; [congruence|]. cbn [append PyStr.split_aux].
      change (String d (sep +++ b)) with (String d sep +++ b). rewrite prefix_app. cbn [String.length].
      rewrite Nat.sub_succ, Nat.sub_0_r, split_skip. reflexivity.
    + assert (P := first_prefix _ _ _ _ _ F). destruct F as [F1 F2]. rewrite F1 in *. cbn [append] in *. cbn [PyStr.split_aux]. rewrite P.
      rewrite (IH _ b); [reflexivity|]. apply (first_tail _ c). split; [reflexivity|exact F2].
Qed.
(** one of both cases always applies, with a shorter rest *)
Theorem law_first : forall sep s, sep <> "" ->
  nowhere sep s \/ exists a b, first_at sep a b s /\ String.length b < String.length s.
Proof.
  intros sep s NE. induction s as [|c s IH].
  - left. intros a b Q. destruct a, sep; try discriminate Q. congruence.
  - destruct (String.prefix sep (String c s)) eqn:P.
    + apply prefix_spec in P. destruct P as [r Q]. right. exists "", r. split; [split; [exact Q|]|].
      * intros a' b' _. cbn. lia.
      * rewrite Q, slength_app. destruct sep; [congruence|cbn; lia].
    + destruct IH as [N|[a [b [[F1 F2] L]]]].
      * left. intros a b Q. destruct a as [|d a].
        -- assert (X : String.prefix sep (String c s) = true) by (apply prefix_spec; exists b; exact Q). congruence.
        -- cbn [append] in Q. injection Q as -> Q. exact (N a b Q).
      * right. exists (String c a), b. split; [|cbn; lia]. split; [rewrite F1; reflexivity|].
        intros a' b' Q. destruct a' as [|d a'].
        -- assert (X : String.prefix sep (String c s) = true) by (apply prefix_spec; exists b'; exact Q). congruence.
        -- cbn [append] in Q. injection Q as -> Q. specialize (F2 a' b' Q). cbn. lia.
Qed.
(** splitting loses nothing *)
Theorem law_join_split : forall sep s, sep <> "" -> join sep (split sep s) = s.
Proof.
  intros sep s NE. remember (String.length s) as n eqn:N. revert s N. induction n as [n IH] using lt_wf_ind. intros s N.
  destruct (law_first sep s NE) as [H|[a [b [F L]]]]; destruct (law_split sep s NE) as [S1 S2].
  - rewrite (S1 H). reflexivity.
  - rewrite (S2 a b F). assert (J := IH (String.length b) ltac:(lia) b eq_refl).
    destruct (split sep b) as [|x l] eqn:Q.
    + exfalso. destruct (law_split sep b NE) as [T1 T2].
      destruct (law_first sep b NE) as [H'|[a' [b' [F' _]]]]; [rewrite (T1 H') in Q|rewrite (T2 _ _ F') in Q]; discriminate Q.
    + change (join sep (a :: x :: l)) with (a +++ sep +++ join sep (x :: l)). rewrite J. symmetry. apply F.
Qed.
Theorem law_replace_char : forall c d s, replace_char c d s = replace (str1 c) (str1 d) s.
Proof.
  intros c d s. unfold replace. induction s as [|x s IH]; [reflexivity|].
  cbn [replace_char replace_aux str1 String.prefix String.length]. rewrite IH.
  destruct (Ascii.ascii_dec c x) as [->|N].
  - rewrite Ascii.eqb_refl. destruct s; reflexivity.
  - destruct (Ascii.eqb c x) eqn:Q; [apply Ascii.eqb_eq in Q; congruence|]. reflexivity.
Qed.

(** ** Letters, blanks and digits *)
(** [str.lower] and [str.upper]: 26 letters are exchanged, other characters stay *)
Theorem law_lower : lower "ABCDEFGHIJKLMNOPQRSTUVWXYZ" = "abcdefghijklmnopqrstuvwxyz"
  /\ forall c, ~ In c (chars "ABCDEFGHIJKLMNOPQRSTUVWXYZ") -> lower (str1 c) = str1 c.
Proof.
  split; [reflexivity|]. intros c H.
  destruct c as [[|] [|] [|] [|] [|] [|] [|] [|]]; try reflexivity; exfalso; apply H; cbn; tauto.
Qed.
Theorem law_upper : upper "abcdefghijklmnopqrstuvwxyz" = "ABCDEFGHIJKLMNOPQRSTUVWXYZ"
  /\ forall c, ~ In c (chars "abcdefghijklmnopqrstuvwxyz") -> upper (str1 c) = str1 c.
Proof.
  split; [reflexivity|]. intros c H.
  destruct c as [[|] [|] [|] [|] [|] [|] [|] [|]]; try reflexivity; exfalso; apply H; cbn; tauto.
Qed.
Theorem law_case_app : forall a b, lower (a +++ b) = lower a +++ lower b /\ upper (a +++ b) = upper a +++ upper b.
Proof.
  intros a b. unfold lower, upper. split; (induction a as [|c a IH]; [reflexivity|]); cbn [append smap]; rewrite IH; reflexivity.
Qed.
Theorem law_digits : forall c, is_digit c = true <-> In c (chars "0123456789").
Proof. destruct c as [[|] [|] [|] [|] [|] [|] [|] [|]]; (split; [intro H|intro H]); cbn in *; try discriminate H; try reflexivity; try tauto; repeat (destruct H as [H|H]; [discriminate H|]); destruct H. Qed.
(** blank, tabulator, line feed, vertical tabulator, form feed, carriage return and the four
    separators of ASCII *)
Theorem law_spaces : forall c, is_space c = true <-> In (nat_of_ascii c) [9; 10; 11; 12; 13; 28; 29; 30; 31; 32].
Proof. destruct c as [[|] [|] [|] [|] [|] [|] [|] [|]]; (split; [intro H|intro H]); cbn in *; try discriminate H; try reflexivity; try tauto; repeat (destruct H as [H|H]; [discriminate H|]); destruct H. Qed.

(** ** Numbers in texts *)
(** the value of a digit *)
Definition digit_of (c : ascii) : option nat :=
  List.find (fun n => match String.get n "0123456789" with Some d => Ascii.eqb c d | None => false end) (seq 0 10).
(** the decimal value, last digit first *)
Fixpoint value_rev (l : list ascii) : option N :=
  match l with
  | [] => Some 0%N
  | c :: t => match digit_of c, value_rev t with
              | Some d, Some n => Some (N.of_nat d + 10 * n)%N
              | _, _ => None
              end
  end.
Definition decimal_of (s : string) : option N := value_rev (rev (chars s)).

Lemma digit_of_spec c : digit_of c = if is_digit c then Some (nat_of_ascii c - 48) else None.
Proof. destruct c as [[|] [|] [|] [|] [|] [|] [|] [|]]; reflexivity. Qed.
(** value of [l] (last digit first) in front of which [acc] stands *)
Lemma digits_val_rev s acc : digits_val s acc = match decimal_of s with Some n => Some (acc * 10 ^ N.of_nat (String.length s) + n)%N | None => None end.
Proof.
  unfold decimal_of. revert acc. induction s as [|c s IH]; intro acc.
  - cbn. f_equal. lia.
  - cbn [digits_val]. unfold chars in *. cbn [list_ascii_of_string rev String.length]. 
    assert (V : forall l, value_rev (l ++ [c]) = match digit_of c, value_rev l with
        | Some d, Some n => Some (n + N.of_nat d * 10 ^ N.of_nat (List.length l))%N | _, _ => None end).
    { induction l as [|x l IHl].
      - cbn [app value_rev List.length]. destruct (digit_of c); [|reflexivity]. f_equal. change (N.of_nat 0) with 0%N. rewrite N.pow_0_r. lia.
      - cbn [app value_rev List.length]. rewrite IHl. destruct (digit_of x), (digit_of c), (value_rev l); try reflexivity.
        f_equal. rewrite Nat2N.inj_succ, N.pow_succ_r'. lia. }
    rewrite V, digit_of_spec. destruct (is_digit c); [|reflexivity]. rewrite IH.
    destruct (value_rev (rev (list_ascii_of_string s))) as [n|]; [|reflexivity].
    f_equal. rewrite rev_length. unfold digit_val.
    replace (List.length (list_ascii_of_string s)) with (String.length s) by (symmetry; apply chars_length).
    rewrite Nat2N.inj_succ, N.pow_succ_r'. lia.
Qed.
Theorem law_num_val : forall s, num_val s = if String.eqb s "" then None else decimal_of s.
Proof.
  intro s. unfold num_val. destruct (String.eqb s ""); [reflexivity|]. rewrite digits_val_rev.
  destruct (decimal_of s); [|reflexivity]. f_equal. 
Qed.

(** [str(n)]: the decimal digits without leading zeros *)
Lemma digits_val_uint d : forall acc, digits_val (uint_str d) acc = Some (dval d acc).
Proof.
  induction d; intro acc; cbn [uint_str digits_val]; try reflexivity;
    (match goal with |- context [is_digit ?c] => change (is_digit c) with true end; cbv iota;
     rewrite IHd; cbn [dval];
     match goal with |- context [digit_val ?c] => let v := eval vm_compute in (digit_val c) in change (digit_val c) with v end;
     rewrite ?N.add_0_r; reflexivity).
Qed.
Lemma digits_val_0 s : digits_val s 0 = decimal_of s.
Proof. rewrite digits_val_rev. destruct (decimal_of s); reflexivity. Qed.
Lemma N_str_value n : decimal_of (N_str n) = Some n.
Proof.
  rewrite <- digits_val_0. destruct n as [|p]; [reflexivity|]. cbn [N_str]. rewrite digits_val_uint, dval_0. f_equal.
  apply (DecimalN.Unsigned.of_to (Npos p)).
Qed.
Lemma N_str_head n t : N_str n = String "0" t -> n = 0%N.
Proof.
  destruct n as [|p]; [reflexivity|]. cbn [N_str]. intro E. exfalso.
  assert (U := DecimalN.Unsigned.to_of (N.to_uint (Npos p))). rewrite DecimalN.Unsigned.of_to in U.
  destruct (N.to_uint (Npos p)) as [|d|d|d|d|d|d|d|d|d|d] eqn:Q; try discriminate E.
  unfold Decimal.unorm in U. cbn [Decimal.nzhead] in U. destruct (Decimal.nzhead d) eqn:Z; try discriminate U.
  - injection U as ->. assert (V := DecimalN.Unsigned.of_to (Npos p)). rewrite Q in V. discriminate V.
  - exact (DecimalFacts.nzhead_nonzero _ _ Z).
Qed.
Theorem law_str : forall n,
  N_str n <> "" /\ decimal_of (N_str n) = Some n /\ (forall c, In c (chars (N_str n)) -> is_digit c = true)
  /\ (forall t, N_str n = String "0" t -> n = 0%N /\ t = "").
Proof.
  intro n. split; [apply N_str_not_nil|]. split; [apply N_str_value|]. split.
  - intros c I. apply (N_str_digits n). apply law_has_char. exact I.
  - intros t Q. assert (Z := N_str_head n t Q). split; [exact Z|]. subst n. injection Q as <-. reflexivity.
Qed.
Theorem law_tuple :
  tuple_str [] = "()" /\ (forall n, tuple_str [n] = "(" +++ N_str (N.of_nat n) +++ ",)")
  /\ (forall l n, l <> [] -> exists t, tuple_str l = "(" +++ t +++ ")" /\ tuple_str (n :: l) = "(" +++ N_str (N.of_nat n) +++ ", " +++
                              (match l with [m] => N_str (N.of_nat m) | _ => t end) +++ ")").
Proof.
  split; [reflexivity|]. split; [reflexivity|]. intros l n NE. destruct l as [|m [|k l]]; [congruence| |].
  - exists (nat_str m +++ ","). split; [cbn [tuple_str]; rewrite !sapp_assoc; reflexivity|]. cbn [tuple_str map join].
    rewrite !sapp_assoc. reflexivity.
  - exists (join ", " (map nat_str (m :: k :: l))). split; [reflexivity|]. cbn [tuple_str].
    change (map nat_str (n :: m :: k :: l)) with (nat_str n :: nat_str m :: map nat_str (k :: l)).
    change (join ", " (nat_str n :: nat_str m :: map nat_str (k :: l))) with
      (nat_str n +++ ", " +++ join ", " (map nat_str (m :: k :: l))). rewrite !sapp_assoc. reflexivity.
Qed.

(** [str.strip]: what is left begins and ends with other characters than white space; only white
    space is removed *)
Definition blank (s : string) : Prop := forall c, In c (chars s) -> is_space c = true.
Definition bare (w : string) : Prop :=
  w = "" \/ (exists c t, w = String c t /\ is_space c = false) /\ (exists t c, w = t +++ str1 c /\ is_space c = false).
Lemma lstrip_split s : exists a, s = a +++ lstrip s /\ blank a
  /\ (lstrip s = "" \/ exists c t, lstrip s = String c t /\ is_space c = false).
Proof.
  induction s as [|c s IH]; [exists ""; split; [reflexivity|split; [intros c []|left; reflexivity]]|].
  cbn [lstrip]. destruct (is_space c) eqn:B.
  - destruct IH as [a [E [W L]]]. exists (String c a). split; [cbn [append]; rewrite <- E; reflexivity|].
    split; [|exact L]. intros x [<-|I]; [exact B|apply W, I].
  - exists "". split; [reflexivity|]. split; [intros x []|]. right. eauto.
Qed.
Lemma blank_rev a : blank a -> blank (srev a).
Proof.
  induction a as [|c a IH]; intros W; [exact W|]. rewrite srev_cons. intros x I. rewrite chars_app in I. apply in_app_or in I.
  destruct I as [I|[<-|[]]]; [|apply W; left; reflexivity]. apply IH; [|exact I]. intros y J. apply W. right. exact J.
Qed.
Lemma lstrip_bare s : (s = "" \/ exists c t, s = String c t /\ is_space c = false) -> lstrip s = s.
Proof. intros [->|[c [t [-> B]]]]; [reflexivity|]. cbn [lstrip]. rewrite B. reflexivity. Qed.
Theorem law_strip : forall s, exists a b, s = a +++ strip s +++ b /\ blank a /\ blank b /\ bare (strip s).
Proof.
  intro s. unfold strip. destruct (lstrip_split s) as [a [E [W L]]]. set (u := lstrip s) in *.
  destruct (lstrip_split (srev u)) as [b [E2 [W2 L2]]]. set (v := lstrip (srev u)) in *.
  assert (U : u = srev v +++ srev b) by (rewrite <- srev_append, <- E2; symmetry; apply srev_srev).
  exists a, (srev b). split; [rewrite <- U; exact E|]. split; [exact W|]. split; [apply blank_rev; exact W2|].
  destruct L2 as [L2|[c [t [V B]]]]; [left; rewrite L2; reflexivity|]. right. split.
  - destruct L as [L|[d [r [Q D]]]]; [rewrite L in U; rewrite V in U; rewrite srev_cons in U; destruct (srev t); discriminate U|].
    rewrite Q in U. destruct (srev v) as [|x y] eqn:SV; [|injection U as -> _; eauto].
    apply (f_equal srev) in SV. rewrite srev_srev, V in SV. discriminate SV.
  - exists (srev t), c. rewrite V, srev_cons. split; [reflexivity|exact B].
Qed.
(** so much that nothing else would do *)
Theorem law_strip_unique : forall a w b, blank a -> blank b -> bare w -> strip (a +++ w +++ b) = w.
Proof.
  assert (LW : forall a s, blank a -> lstrip (a +++ s) = lstrip s).
  { induction a as [|c a IH]; intros s W; [reflexivity|]. cbn [append lstrip]. rewrite (W c) by (left; reflexivity).
    apply IH. intros x I. apply W. right. exact I. }
  intros a w b A B [->|[C1 [t' [c' [W2 C2]]]]]; unfold strip; rewrite LW by exact A.
  - cbn [append]. rewrite <- (sapp_nil_r b), LW by exact B. reflexivity.
  - assert (L : lstrip (w +++ b) = w +++ b).
    { apply lstrip_bare. right. destruct C1 as [c [t [-> D]]]. cbn [append]. eauto. }
    rewrite L, srev_append, LW by (apply blank_rev; exact B).
    rewrite lstrip_bare; [apply srev_srev|]. right. rewrite W2, srev_append. change (srev (str1 c')) with (str1 c'). cbn. eauto.
Qed.

(** ** Comparison of versions *)
Definition part (l : list N) (i : nat) : N := nth i l 0%N.
(** the first component that differs decides; missing components count as 0 *)
Lemma all_zero_iff l : all_zero l = true <-> forall i, part l i = 0%N.
Proof.
  unfold part. induction l as [|x l IH]; [split; [intros _ [|i]; reflexivity|reflexivity]|]. cbn [all_zero].
  rewrite andb_true_iff, N.eqb_eq, IH. split.
  - intros [-> H] [|i]; [reflexivity|apply H].
  - intro H. split; [exact (H 0)|]. intro i. exact (H (S i)).
Qed.
Lemma some_part l : all_zero l = false -> exists i, (forall j, j < i -> part l j = 0%N) /\ (0 < part l i)%N.
Proof.
  induction l as [|x l IH]; [discriminate|]. cbn [all_zero]. destruct (N.eqb_spec x 0) as [->|NZ].
  - intro H. destruct (IH H) as [i [H1 H2]]. exists (S i). split; [|exact H2]. intros [|j] L; [reflexivity|apply H1; lia].
  - intros _. exists 0. split; [intros j L; lia|]. cbn. lia.
Qed.
Theorem law_version : forall a b,
  ver_ltb a b = true <-> exists i, (forall j, j < i -> part a j = part b j) /\ (part a i < part b i)%N.
Proof.
  assert (Z : forall i, part [] i = 0%N) by (intros [|i]; reflexivity).
  induction a as [|x a IH]; intro b.
  - cbn [ver_ltb]. split.
    + intro H. apply negb_true_iff in H. destruct (some_part b H) as [i [H1 H2]]. exists i.
      split; [intros j L; rewrite Z, (H1 j L); reflexivity|rewrite Z; exact H2].
    + intros [i [_ H]]. apply negb_true_iff. destruct (all_zero b) eqn:Q; [|reflexivity].
      assert (V := proj1 (all_zero_iff b) Q i). lia.
  - destruct b as [|y b].
    + cbn [ver_ltb]. split; [discriminate|]. intros [i [_ H]]. rewrite Z in H. lia.
    + cbn [ver_ltb]. destruct (N.ltb_spec x y) as [L|G]; [split; [intros _|reflexivity]|].
      * exists 0. split; [intros j J; lia|exact L].
      * destruct (N.ltb_spec y x) as [L|G2].
        -- split; [discriminate|]. intros [[|i] [H1 H2]]; [cbn in H2; lia|]. specialize (H1 0 ltac:(lia)). cbn in H1. lia.
        -- assert (x = y) by lia. subst y. rewrite IH. split; intros [i [H1 H2]].
           ++ exists (S i). split; [|exact H2]. intros [|j] J; [reflexivity|apply H1; lia].
           ++ destruct i as [|i]; [cbn in H2; lia|]. exists i. split; [|exact H2]. intros j J. apply (H1 (S j)). lia.
Qed.
(** texts that are not numbers separated by points are rejected *)
Theorem law_parse_version : forall s l, parse_version s = Some l <->
  List.length l = List.length (split "." s)
  /\ forall i, i < List.length l -> nth i (split "." s) "" <> "" /\ decimal_of (nth i (split "." s) "") = Some (part l i).
Proof.
  intros s l. unfold parse_version, part. revert l. induction (split "." s) as [|x t IH]; intro l.
  - cbn [omap]. split; [intro H; injection H as <-; split; [reflexivity|intros i L; cbn in L; lia]|].
    intros [H _]. destruct l; [reflexivity|discriminate H].
  - cbn [omap]. rewrite law_num_val. split.
    + destruct (String.eqb_spec x "") as [->|NE]; [discriminate|]. destruct (decimal_of x) as [n|] eqn:D; [|discriminate].
      destruct (omap num_val t) as [r|]; [|discriminate]. intro H. injection H as <-. destruct (proj1 (IH r) eq_refl) as [H1 H2].
      split; [cbn; rewrite H1; reflexivity|]. intros [|i] L; [split; [exact NE|exact D]|]. apply H2. cbn in L. lia.
    + intros [H1 H2]. destruct l as [|n l]; [discriminate H1|]. destruct (H2 0) as [NE D]; [cbn; lia|]. cbn [nth] in NE, D.
      destruct (String.eqb_spec x "") as [Q|_]; [congruence|]. rewrite D.
      assert (R : omap num_val t = Some l).
      { apply IH. injection H1 as H1. split; [exact H1|]. intros i L. apply (H2 (S i)). cbn. lia. }
      rewrite R. reflexivity.
Qed.

(** ** Decimal fractions *)
Definition Q_of (d : dec) : Q := (Z.of_N (dm d) # Pos.of_nat (10 ^ ds d)).
Lemma pow10_pos n : Zpos (Pos.of_nat (10 ^ n)) = Z.of_N (pow10 n).
Proof.
  unfold pow10. assert (P : 10 ^ n <> 0) by (apply Nat.pow_nonzero; lia).
  rewrite <- positive_nat_Z, Nat2Pos.id by exact P.
  rewrite N2Z.inj_pow, nat_N_Z, Nat2Z.inj_pow. reflexivity.
Qed.
Theorem law_dec : forall a b,
  (dec_ltb a b = true <-> (Q_of a < Q_of b)%Q) /\ (dec_leb a b = true <-> (Q_of a <= Q_of b)%Q).
Proof.
  intros a b. unfold dec_ltb, dec_leb, Q_of, Qlt, Qle. cbn [Qnum Qden]. rewrite !pow10_pos, N.ltb_lt, N.leb_le. split; split; lia.
Qed.
(** the digits before and after the point *)
Theorem law_parse_float : forall i f, i <> "" -> f <> "" -> has_char "." i = false -> has_char "." f = false ->
  parse_float i = match decimal_of i with Some n => Some (Dec n 0) | None => None end
  /\ parse_float (i +++ "." +++ f) = match decimal_of i, decimal_of f with
       | Some n, Some m => Some (Dec (n * 10 ^ N.of_nat (String.length f) + m) (String.length f))
       | _, _ => None end.
Proof.
  intros i f I F HI HF. unfold parse_float.
  change (split ".") with (split (str1 "."%char)).
  rewrite split_no_char by exact HI. change ("." +++ f) with (String "." f).
  rewrite split_app by exact HI. rewrite split_no_char by exact HF.
  destruct (String.eqb_spec i "") as [Q|_]; [congruence|]. destruct (String.eqb_spec f "") as [Q|_]; [congruence|].
  cbn [orb]. rewrite digits_val_0. split; [reflexivity|].
  assert (A : forall s acc, digits_val (s +++ f) acc = match digits_val s acc with Some n => digits_val f n | None => None end).
  { induction s as [|c s IH]; intro acc; [reflexivity|]. cbn [append digits_val]. destruct (is_digit c); [apply IH|reflexivity]. }
  rewrite A, digits_val_0. destruct (decimal_of i) as [n|]; [|reflexivity]. rewrite digits_val_rev.
  destruct (decimal_of f); reflexivity.
Qed.

Lemma strip0_value s : decimal_of (strip0 s) = decimal_of s.
Proof.
  rewrite <- !digits_val_0. induction s as [|c s IH]; [reflexivity|]. cbn [strip0]. destruct (Ascii.eqb c "0") eqn:Q; [|reflexivity].
  apply Ascii.eqb_eq in Q. subst c. destruct (String.eqb s ""); [reflexivity|]. exact IH.
Qed.
Lemma strip0_shape s : s <> "" -> strip0 s <> "" /\ (forall t, strip0 s = String "0" t -> t = "")
  /\ exists k, s = string_of_list_ascii (repeat "0"%char k) +++ strip0 s.
Proof.
  induction s as [|c s IH]; [congruence|]. intros _. cbn [strip0]. destruct (Ascii.eqb c "0") eqn:Q.
  - apply Ascii.eqb_eq in Q. subst c. destruct (String.eqb_spec s "") as [->|NE]; cbn [andb negb].
    + split; [discriminate|]. split; [intros t Q; injection Q as <-; reflexivity|]. exists 0. reflexivity.
    + destruct (IH NE) as [H1 [H2 [k H3]]]. split; [exact H1|]. split; [exact H2|]. exists (S k).
      cbn [repeat string_of_list_ascii append]. rewrite <- H3. reflexivity.
  - cbn [andb]. split; [discriminate|]. split; [|exists 0; reflexivity]. intros t E. injection E as -> _.
    rewrite Ascii.eqb_refl in Q. discriminate Q.
Qed.
(** [str(float(s))]: the same number, one digit at least before and after the point, no other zeros
    at the ends *)
Theorem law_float_str : forall i f, i <> "" -> f <> "" -> has_char "." i = false -> has_char "." f = false ->
  decimal_of i <> None -> decimal_of f <> None ->
  float_str i = Some (strip0 i +++ ".0")
  /\ exists i' f' k l, float_str (i +++ "." +++ f) = Some (i' +++ "." +++ f')
      /\ i = string_of_list_ascii (repeat "0"%char k) +++ i' /\ f = f' +++ string_of_list_ascii (repeat "0"%char l)
      /\ i' <> "" /\ f' <> "" /\ (forall t, i' = String "0" t -> t = "") /\ (forall t, f' = t +++ "0" -> t = "").
Proof.
  intros i f I F HI HF DI DF. destruct (law_parse_float i f I F HI HF) as [P1 P2]. unfold float_str. rewrite P1, P2.
  change (split ".") with (split (str1 "."%char)).
  rewrite split_no_char by exact HI. change ("." +++ f) with (String "." f).
  rewrite split_app by exact HI. rewrite split_no_char by exact HF.
  destruct (decimal_of i) as [n|]; [|congruence]. destruct (decimal_of f) as [m|]; [|congruence]. split; [reflexivity|].
  destruct (strip0_shape i I) as [S1 [S2 [k S3]]].
  assert (F' : srev f <> "") by (intro Q; apply (f_equal srev) in Q; rewrite srev_srev in Q; exact (F Q)).
  destruct (strip0_shape (srev f) F') as [T1 [T2 [l T3]]].
  assert (R : forall l, srev (string_of_list_ascii (repeat "0"%char l)) = string_of_list_ascii (repeat "0"%char l)).
  { clear. assert (C : forall l, string_of_list_ascii (repeat "0"%char l) +++ "0" = String "0" (string_of_list_ascii (repeat "0"%char l))).
    { induction l as [|l IH]; [reflexivity|]. cbn [repeat string_of_list_ascii append]. rewrite IH. reflexivity. }
    induction l as [|l IH]; [reflexivity|]. cbn [repeat string_of_list_ascii]. rewrite srev_cons, IH. apply C. }
  exists (strip0 i), (srev (strip0 (srev f))), k, l. split; [reflexivity|]. split; [exact S3|]. split.
  - rewrite <- (srev_srev f), T3 at 1. rewrite srev_append, R. reflexivity.
  - split; [exact S1|]. split; [intro Q; apply (f_equal srev) in Q; rewrite srev_srev in Q; exact (T1 Q)|]. split; [exact S2|].
    intros t Q. apply (f_equal srev) in Q. rewrite srev_srev, srev_append in Q. cbn [append] in Q.
    specialize (T2 (srev t) Q). apply (f_equal srev) in T2. rewrite srev_srev in T2. exact T2.
Qed.

(** the constants: the double precision numbers closest to 1e-7 and 15 * 2^119 *)
Theorem law_constants : rtol64 = SpecFloat.SFdiv prec64 emax64 (f_of_Z 1) (f_of_Z 10000000) /\ fill64 = f_of_Z (15 * 2 ^ 119).
Proof. split; vm_compute; reflexivity. Qed.

(** ** [re.split(', ?', s)] and [re.split(', ?| ', s)] *)
Lemma rsc_ne s : forall b, re_split_comma_aux s b <> [].
Proof.
  induction s as [|c s IH]; intros b; [discriminate|]. cbn [re_split_comma_aux]. destruct b; [apply IH|].
  destruct (Ascii.eqb c ","); [discriminate|]. destruct (re_split_comma_aux s false); discriminate.
Qed.
Theorem law_re_comma : forall a b, has_char "," a = false ->
  re_split_comma a = [a]
  /\ re_split_comma (a +++ ", " +++ b) = a :: re_split_comma b
  /\ (startswith " " b = false -> re_split_comma (a +++ "," +++ b) = a :: re_split_comma b).
Proof.
  intros a b H. unfold re_split_comma. induction a as [|c a IH].
  - split; [reflexivity|]. split; [destruct b; reflexivity|]. intro N. cbn [append re_split_comma_aux]. cbv iota.
    change (Ascii.eqb "," ",") with true. cbv iota. unfold startswith in N. rewrite N. reflexivity.
  - cbn [has_char] in H. apply orb_false_iff in H. destruct H as [H1 H2]. destruct (IH H2) as [I1 [I2 I3]].
    rewrite Ascii.eqb_sym in H1. cbn [append re_split_comma_aux]. unfold ascii_eqb in H1. rewrite H1.
    rewrite I1. split; [reflexivity|]. split; [cbn [append] in I2; rewrite I2; reflexivity|]. intro N.
    specialize (I3 N). cbn [append] in I3. rewrite I3. reflexivity.
Qed.
Theorem law_re_comma_space : forall a b, has_char "," a = false -> has_char " " a = false ->
  re_split_comma_space a = [a]
  /\ re_split_comma_space (a +++ ", " +++ b) = a :: re_split_comma_space b
  /\ re_split_comma_space (a +++ " " +++ b) = a :: re_split_comma_space b
  /\ (startswith " " b = false -> re_split_comma_space (a +++ "," +++ b) = a :: re_split_comma_space b).
Proof.
  intros a b H G. unfold re_split_comma_space. induction a as [|c a IH].
  - split; [reflexivity|]. split; [destruct b; reflexivity|]. split; [reflexivity|]. intro N. cbn [append re_split_comma_space_aux]. cbv iota.
    change (Ascii.eqb "," ",") with true. cbv iota. unfold startswith in N. rewrite N. reflexivity.
  - cbn [has_char] in H, G. apply orb_false_iff in H. destruct H as [H1 H2]. apply orb_false_iff in G. destruct G as [G1 G2].
    destruct (IH H2 G2) as [I1 [I2 [I3 I4]]].
    rewrite Ascii.eqb_sym in H1, G1. cbn [append re_split_comma_space_aux]. unfold ascii_eqb in H1, G1. rewrite H1, G1.
    rewrite I1. split; [reflexivity|]. cbn [append] in I2, I3, I4. split; [rewrite I2; reflexivity|]. split; [rewrite I3; reflexivity|].
    intro N. rewrite (I4 N). reflexivity.
Qed.

(** ** Shapes *)
Theorem law_prod : prod [] = 1 /\ forall a b n, prod (a ++ [n] ++ b) = n * prod (a ++ b).
Proof. split; [reflexivity|]. intros a b n. induction a as [|x a IH]; [reflexivity|]. cbn [app prod] in *. rewrite IH. lia. Qed.
(** the elements of an array are numbered from 0 on without gaps, the last axis varies fastest *)
Theorem law_ravel : forall s,
  (forall idx, in_bounds s idx -> ravel s idx < prod s)
  /\ (forall n, n < prod s -> exists idx, in_bounds s idx /\ ravel s idx = n)
  /\ (forall p i r j q, in_bounds s (p ++ i :: r) -> in_bounds s (p ++ j :: q) -> i < j ->
        ravel s (p ++ i :: r) < ravel s (p ++ j :: q)).
Proof.
  intro s. split; [apply ravel_lt|]. split.
  - induction s as [|m s IH]; intros n L.
    + exists []. split; [constructor|]. cbn in *. lia.
    + cbn [prod] in L. assert (P : prod s <> 0) by (intro Z; rewrite Z in L; lia).
      destruct (IH (n mod prod s)) as [r [R1 R2]]; [apply Nat.mod_upper_bound; exact P|].
      exists (n / prod s :: r). split.
      * constructor; [|exact R1]. apply Nat.div_lt_upper_bound; [exact P|]. lia.
      * cbn [ravel]. rewrite R2. rewrite (Nat.div_mod n (prod s) P) at 3. lia.
  - induction s as [|m s IH]; intros p i r j q H1 H2 L.
    + inversion H1. destruct p; discriminate.
    + destruct p as [|x p]; cbn [app] in *.
      * inversion H1 as [|? ? ? ? A1 B1]; subst. inversion H2 as [|? ? ? ? A2 B2]; subst. cbn [ravel].
        assert (V := ravel_lt s r B1). nia.
      * inversion H1 as [|? ? ? ? A1 B1]; subst. inversion H2 as [|? ? ? ? A2 B2]; subst. cbn [ravel].
        assert (V := IH p i r j q B1 B2 L). lia.
Qed.
(** singleton axes are added, and as many as needed; existing axes keep their order *)
Definition ones (n : nat) : list nat := repeat 1 n.
Theorem law_atleast : forall s n,
  exists p, p <= 1 /\ sh_atleast_nd s n = ones p ++ s ++ ones (n - List.length s - p)
    /\ (n <= List.length s -> p = 0) /\ List.length (sh_atleast_nd s n) = Nat.max n (List.length s)
    /\ (p = 1 <-> (List.length s = 0 /\ n = 1) \/ (List.length s <= 1 /\ n >= 2)).
Proof.
  intros s n. unfold sh_atleast_nd, pad1, ones.
  destruct n as [|[|[|n]]]; destruct s as [|a [|b [|c s]]];
    cbn [sh_atleast_1d sh_atleast_2d sh_atleast_3d List.length app Nat.sub];
    first [exists 0; rewrite ?Nat.sub_0_r, ?app_nil_r, ?app_length, ?repeat_length; cbn; rewrite ?Nat.sub_0_r, ?app_nil_r, ?app_length, ?repeat_length;
             split; [lia|]; split; [reflexivity|]; split; [lia|]; cbn; split; lia
          |exists 1; rewrite ?Nat.sub_0_r, ?app_nil_r, ?app_length, ?repeat_length; cbn; rewrite ?Nat.sub_0_r, ?app_nil_r, ?app_length, ?repeat_length;
             split; [lia|]; split; [reflexivity|]; split; [lia|]; cbn; split; lia
          |idtac].
Qed.
Theorem law_squeeze : forall s, ~ In 1 (sh_squeeze s) /\ prod (sh_squeeze s) = prod s
  /\ exists keep, List.length keep = List.length s
      /\ sh_squeeze s = map fst (filter snd (combine s keep)) /\ forall i, i < List.length s -> nth i keep false = negb (nth i s 0 =? 1).
Proof.
  intro s. unfold sh_squeeze. split; [intro H; apply filter_In in H; destruct H as [_ H]; discriminate H|]. split.
  - induction s as [|n s IH]; [reflexivity|]. cbn [filter]. destruct (Nat.eqb_spec n 1) as [->|N]; cbn [negb prod]; rewrite IH; lia.
  - exists (map (fun n => negb (n =? 1)) s). split; [apply map_length|]. split.
    + induction s as [|n s IH]; [reflexivity|]. cbn [filter map combine snd]. destruct (negb (n =? 1)); cbn [map fst]; rewrite IH; reflexivity.
    + intros i L. rewrite (nth_indep _ false (negb (0 =? 1))) by (rewrite map_length; exact L). apply (map_nth (fun n => negb (n =? 1))).
Qed.

(** ** Examples: each function on a text where its laws apply *)
Example law_cases :
  startswith "GLOBAL_" "GLOBAL_Title" = true /\ endswith "_Units" "Data_IR_Units" = true /\ contains "Data" "GLOBAL_DataType" = true
  /\ split "_" "a_b__c" = ["a"; "b"; ""; "c"] /\ replace "aa" "b" "aaaaa" = "bba" /\ join ", " ["x"; "y"] = "x, y"
  /\ before_last "_" "Data_IR_Units" = Some "Data_IR" /\ after_last "_" "Data_IR_Units" = "Units"
  /\ lower "Ab1" = "ab1" /\ strip "  a b " = "a b" /\ N_str 1020 = "1020" /\ tuple_str [3] = "(3,)" /\ tuple_str [1; 20] = "(1, 20)"
  /\ version_ltb "1.9" "1.10" = Ok true /\ version_ltb "1" "1.0.0" = Ok false /\ float_str "010.20" = Some "10.2"
  /\ re_split_comma "MRn, MC,C" = ["MRn"; "MC"; "C"] /\ re_split_comma_space "degree degree, metre" = ["degree"; "degree"; "metre"]
  /\ sh_atleast_nd [2; 3] 4 = [2; 3; 1; 1] /\ sh_squeeze [1; 2; 1] = [2].
Proof. vm_compute. repeat split; reflexivity. Qed.

Print Assumptions law_replace.
Print Assumptions law_split.
Print Assumptions law_str.
Print Assumptions law_strip.
Print Assumptions law_version.
Print Assumptions law_float_str.
Print Assumptions law_ravel.
