(** Facts: reading a csv file gives the entries of its rows. *)
From Verif Require Import Base PyStr PyNum NdArray Sofa Verify UpdateConv SpecUpdate SpecCsv
  BaseFacts StrFacts WriteFacts RoundFacts StreamFacts UpdateFacts CsvFacts.
From Coq Require Import ZArith NArith Lia.
Open Scope string_scope.
Open Scope list_scope.
Open Scope nat_scope.

(** ** Cells *)
Lemma blanks_blank n : String.eqb (replace " " "" (blanks n)) "" = true.
Proof.
  apply String.eqb_eq. unfold replace. induction n as [|n IH]; [reflexivity|]. cbn [blanks replace_aux].
  assert (P : String.prefix " " (String " " (blanks n)) = true) by (destruct (blanks n); reflexivity).
  rewrite P. cbn [append String.length Nat.sub]. exact IH.
Qed.

Lemma solid_head s : solid s -> exists c t, s = String c t /\ is_space c = false.
Proof.
  intros [H1 [H2 _]]. destruct s as [|c t]; [destruct (H1 eq_refl)|]. exists c, t. split; [reflexivity|].
  cbn [lstrip] in H2. destruct (is_space c); [|reflexivity]. exfalso.
  assert (L := lstrip_length t). apply (f_equal String.length) in H2. cbn [String.length] in H2. lia.
Qed.

Lemma padded_not_blank s t : solid s -> padded s t -> String.eqb (replace " " "" t) "" = false.
Proof.
  intros SD [a [b ->]]. destruct (solid_head s SD) as [c [r [-> SP]]]. apply (not_blank c).
  - intros ->. discriminate SP.
  - rewrite !has_char_app. cbn [has_char]. rewrite Ascii.eqb_refl. cbn. apply orb_true_r.
Qed.

Lemma int_digits_bad c : is_digit c = false -> c <> "_"%char -> forall s acc p, has_char c s = true -> int_digits s acc p = None.
Proof.
  intros D U. induction s as [|x s IH]; intros acc p H; [discriminate H|]. cbn [has_char] in H. cbn [int_digits].
  destruct (Ascii.eqb_spec c x) as [E|NE].
  - subst x. rewrite D. rewrite (proj2 (Ascii.eqb_neq c "_") U). reflexivity.
  - cbn [orb] in H. destruct (is_digit x); [apply IH, H|]. destruct (Ascii.eqb x "_" && p); [apply IH, H|reflexivity].
Qed.

Lemma int_of_word s c : strip s = s -> has_char c s = true -> is_digit c = false -> c <> "+"%char -> c <> "-"%char -> c <> "_"%char ->
  int_of s = None.
Proof.
  intros ST H D P M U. unfold int_of. rewrite ST. destruct s as [|x t]; [reflexivity|].
  assert (HT : c <> x -> has_char c t = true).
  { intro N. cbn [has_char] in H. rewrite (proj2 (Ascii.eqb_neq c x) N) in H. exact H. }
  destruct (Ascii.eqb_spec x "-") as [E|N1].
  - rewrite (int_digits_bad c D U t); [reflexivity|]. apply HT. congruence.
  - destruct (Ascii.eqb_spec x "+") as [E|N2].
    + rewrite (int_digits_bad c D U t); [reflexivity|]. apply HT. congruence.
    + rewrite (int_digits_bad c D U _); [reflexivity|exact H].
Qed.

Lemma word_solid F s : word F s -> solid s.
Proof. intros [H1 [H2 _]]. apply strip_solid; assumption. Qed.
Lemma word_no_number F s : word F s -> number_of F s = None.
Proof.
  intros [H1 [H2 [H3 [H4 [c [C1 [C2 [C3 [C4 C5]]]]]]]]]. unfold number_of. destruct (has_char "." s).
  - rewrite H4 by reflexivity. reflexivity.
  - rewrite (int_of_word s c) by assumption. reflexivity.
Qed.
Lemma not_bracket c t : startswith "[" (String c t) = false -> negb (Ascii.eqb c "[") = true.
Proof.
  unfold startswith. cbn [String.prefix]. intro H. destruct (ascii_dec "[" c) as [E|N].
  - destruct t; discriminate H.
  - rewrite (proj2 (Ascii.eqb_neq c "[")); [reflexivity|]. congruence.
Qed.

Lemma cell_ok F s c : cell_is F s c -> parse_cell F s = Some c.
Proof.
  intros [n|s' t W P|s' e t N B P|s' row t R P|s' rows t L R P].
  - unfold parse_cell. rewrite blanks_blank. reflexivity.
  - assert (SD := word_solid F s' W). assert (NN := word_no_number F s' W). unfold parse_cell.
    rewrite (padded_not_blank s' t SD P), (strip_padded s' t SD P). destruct W as [W1 [_ [W3 _]]].
    destruct s' as [|x r]; [destruct (W1 eq_refl)|]. rewrite (not_bracket _ _ W3), NN. reflexivity.
  - destruct (numeral_facts F s' e N) as [SD [_ [_ [_ NN]]]]. unfold parse_cell.
    rewrite (padded_not_blank s' t SD P), (strip_padded s' t SD P).
    destruct (solid_head s' SD) as [x [r [-> _]]]. rewrite (not_bracket _ _ B), NN. reflexivity.
  - rewrite (parse_bracket F s' [row] t R P). reflexivity.
  - rewrite (parse_bracket F s' rows t R P). destruct rows as [|r1 [|r2 rs]]; cbn in L; [lia|lia|reflexivity].
Qed.

(** the text of a cell that is not blank *)
Lemma cell_core F s v : cell_is F s (Some v) -> exists a core b, s = blanks a +++ core +++ blanks b /\ solid core /\
  cell_is F (blanks a +++ core) (Some v).
Proof.
  assert (PD : forall a core, padded core (blanks a +++ core)).
  { intros a core. exists a, 0. cbn [blanks]. now rewrite sapp_nil_r. }
  assert (BR : forall x, solid ("[" +++ x +++ "]")) by (intro x; apply solid_app; (split; [discriminate|split; reflexivity])).
  intro H. remember (Some v) as c eqn:E. destruct H as [n|s' t W P|s' e t N B P|s' row t R P|s' rows t L R P];
    [discriminate E|..]; destruct P as [a [b ->]]; injection E as <-; do 3 eexists; (split; [reflexivity|]).
  - split; [exact (word_solid F s' W)|]. apply (ci_word F s'); [exact W|apply PD].
  - split; [apply (numeral_facts F s' e N)|]. apply (ci_number F s'); [exact N|exact B|apply PD].
  - split; [apply BR|]. apply (ci_list F s'); [exact R|apply PD].
  - split; [apply BR|]. apply (ci_table F s'); [exact L|exact R|apply PD].
Qed.
Lemma cell_blank F s : cell_is F s None -> exists n, s = blanks n.
Proof. intro H. remember None as c eqn:E. destruct H; try discriminate E. eauto. Qed.

(** ** Lines *)
Definition space (w : string) : Prop := forall c, has_char c w = true -> is_space c = true.

Lemma lstrip_space w s : space w -> lstrip (w +++ s) = lstrip s.
Proof.
  induction w as [|x w IH]; intro H; [reflexivity|]. cbn [append lstrip]. rewrite H; [|cbn; rewrite Ascii.eqb_refl; reflexivity].
  apply IH. intros c HC. apply H. cbn [has_char]. rewrite HC. apply orb_true_r.
Qed.
Lemma space_srev w : space w -> space (srev w).
Proof.
  intros H c HC. apply H. rewrite <- HC. clear. unfold srev.
  assert (X : forall s acc, has_char c (srev_app s acc) = has_char c s || has_char c acc).
  { induction s as [|y s IH]; intro acc; [reflexivity|]. cbn [srev_app has_char]. rewrite IH. cbn [has_char].
    rewrite orb_assoc, (orb_comm (has_char c s)), <- orb_assoc. reflexivity. }
  rewrite X. cbn. now rewrite orb_false_r.
Qed.
Lemma strip_end x w : solid x -> space w -> strip (x +++ w) = x.
Proof.
  intros [H1 [H2 H3]] W. unfold strip. rewrite (lstrip_app x w H1 H2), srev_append, (lstrip_space _ _ (space_srev w W)), H3.
  apply srev_srev.
Qed.
Lemma space_app a b : space a -> space b -> space (a +++ b).
Proof. intros A B c H. rewrite has_char_app in H. apply orb_true_iff in H. destruct H; auto. Qed.
Lemma space_blanks n : space (blanks n).
Proof.
  induction n as [|n IH]; intros c H; [discriminate H|]. cbn [blanks has_char] in H.
  destruct (Ascii.eqb_spec c " ") as [E|_]; [subst c; reflexivity|]. apply IH, H.
Qed.
Lemma space_tab : space (str1 TAB).
Proof. intros c H. cbn [str1 has_char] in H. rewrite orb_false_r in H. apply Ascii.eqb_eq in H. subst c. reflexivity. Qed.

Lemma split_join_cells c l : l <> [] -> (forall s, In s l -> has_char c s = false) -> split (str1 c) (join (str1 c) l) = l.
Proof.
  induction l as [|x l IH]; intros N H; [destruct (N eq_refl)|]. destruct l as [|y l].
  - cbn [join]. apply split_no_char, H. left. reflexivity.
  - change (join (str1 c) (x :: y :: l)) with (x +++ String c (join (str1 c) (y :: l))).
    rewrite split_app by (apply H; left; reflexivity). rewrite IH; [reflexivity|discriminate|].
    intros s I. apply H. right. exact I.
Qed.

Lemma fix_ok F name c d : default_is F name c d ->
  (if contains "Version" name then version_default F (fix_default c) else Some (fix_default c)) = Some (Some d).
Proof.
  change (contains "Version" name) with (is_version name). intros [|s G|s v G V|e V|l V|z V FI|x V].
  - destruct (is_version name); reflexivity.
  - assert (Q : fix_default (Some (VStr false s)) = Some (VStr false s)).
    { cbn [code_defaults dget] in G. cbn [fix_default].
      repeat match goal with |- context [String.eqb ?a ?b] => destruct (String.eqb a b); [discriminate G|] end. reflexivity. }
    rewrite Q. destruct (is_version name); reflexivity.
  - rewrite V. f_equal. cbn [code_defaults dget] in G. cbn [fix_default].
    repeat match goal with |- context [String.eqb ?a ?b] => destruct (String.eqb a b); [injection G as <-; reflexivity|] end. discriminate G.
  - rewrite V. reflexivity.
  - rewrite V. reflexivity.
  - rewrite V. cbn [fix_default version_default]. cbv zeta. rewrite FI. reflexivity.
  - rewrite V. reflexivity.
Qed.

Definition head_fields : list cell :=
  map (fun f => Some (VStr false f)) ["Default"; "Flags"; "Dimensions"; "Type"; "Comment"].

Lemma first_line_ok F w : space w -> parse_line F (first_line +++ w) = Some (Some (VStr false "Name") :: head_fields).
Proof.
  intro W. unfold parse_line. rewrite strip_end; [reflexivity| |exact W]. split; [discriminate|split; reflexivity].
Qed.

Lemma row_ok F r ke w : row_is F r ke -> space w -> exists cells,
  parse_line F (row_text_of r +++ w) = Some cells /\ parse_row F head_fields cells = Some ke.
Proof.
  intros [CE [WN KN] [c [d [f [m [t [k [HD [DI [HF [HM [HT [HC E]]]]]]]]]]]]] W.
  destruct ke as [key e]. cbn [fst snd] in *. subst key e.
  assert (SN := word_solid F _ WN). assert (TB := fun s I => CE s TAB I (or_introl eq_refl)). cbn [In row_cells] in TB.
  assert (PN : parse_cell F (w_name r) = Some (Some (VStr false (w_name r)))).
  { apply cell_ok, (ci_word F (w_name r)); [exact WN|]. exists 0, 0. cbn [blanks append]. symmetry. apply sapp_nil_r. }
  assert (PD := cell_ok F _ _ HD). assert (PF := cell_ok F _ _ HF). assert (PM := cell_ok F _ _ HM).
  assert (PT := cell_ok F _ _ HT). assert (PC := cell_ok F _ _ HC). assert (FX := fix_ok F (w_name r) c d DI).
  unfold row_text_of, row_cells. destruct k as [v|].
  - destruct (cell_core F _ _ HC) as [a [core [b [CC [SC CR]]]]].
    set (x := join (str1 TAB) [w_name r; w_default r; w_flags r; w_dims r; w_type r; blanks a +++ core]).
    assert (LE : join (str1 TAB) [w_name r; w_default r; w_flags r; w_dims r; w_type r; w_comment r] +++ w = x +++ (blanks b +++ w)).
    { unfold x. rewrite CC. cbn [join]. rewrite !sapp_assoc. reflexivity. }
    assert (SX : solid x).
    { unfold x. cbn [join].
      replace (w_name r +++ str1 TAB +++ w_default r +++ str1 TAB +++ w_flags r +++ str1 TAB +++ w_dims r +++ str1 TAB +++ w_type r +++ str1 TAB +++ blanks a +++ core)
        with (w_name r +++ (str1 TAB +++ w_default r +++ str1 TAB +++ w_flags r +++ str1 TAB +++ w_dims r +++ str1 TAB +++ w_type r +++ str1 TAB +++ blanks a) +++ core)
        by (rewrite !sapp_assoc; reflexivity).
      apply solid_app; assumption. }
    exists [Some (VStr false (w_name r)); c; f; m; Some t; Some v]. split.
    + unfold parse_line. rewrite LE, (strip_end x _ SX (space_app _ _ (space_blanks b) W)). unfold x. rewrite split_join_cells.
      * cbn [omap]. rewrite PN, PD, PF, PM, PT, (cell_ok F _ _ CR). reflexivity.
      * discriminate.
      * intros s [<-|[<-|[<-|[<-|[<-|[<-|[]]]]]]]; try (apply TB; tauto).
        assert (X := TB (w_comment r) ltac:(tauto)). rewrite CC in X. rewrite !has_char_app in X. rewrite has_char_app.
        apply orb_false_iff in X. destruct X as [X1 X2]. apply orb_false_iff in X2. destruct X2 as [X2 _]. rewrite X1, X2. reflexivity.
    + unfold parse_row. cbn [List.length Nat.eqb]. rewrite FX. reflexivity.
  - destruct (cell_blank F _ HC) as [n CC].
    destruct (cell_core F _ _ HT) as [a [core [b [CT [SC CR]]]]].
    set (x := join (str1 TAB) [w_name r; w_default r; w_flags r; w_dims r; blanks a +++ core]).
    assert (LE : join (str1 TAB) [w_name r; w_default r; w_flags r; w_dims r; w_type r; w_comment r] +++ w = x +++ (blanks b +++ str1 TAB +++ blanks n +++ w)).
    { unfold x. rewrite CC, CT. cbn [join]. rewrite !sapp_assoc. reflexivity. }
    assert (SX : solid x).
    { unfold x. cbn [join].
      replace (w_name r +++ str1 TAB +++ w_default r +++ str1 TAB +++ w_flags r +++ str1 TAB +++ w_dims r +++ str1 TAB +++ blanks a +++ core)
        with (w_name r +++ (str1 TAB +++ w_default r +++ str1 TAB +++ w_flags r +++ str1 TAB +++ w_dims r +++ str1 TAB +++ blanks a) +++ core)
        by (rewrite !sapp_assoc; reflexivity).
      apply solid_app; assumption. }
    exists [Some (VStr false (w_name r)); c; f; m; Some t]. split.
    + unfold parse_line. rewrite LE, (strip_end x _ SX).
      2: { apply space_app; [apply space_blanks|]. apply space_app; [apply space_tab|]. apply space_app; [apply space_blanks|exact W]. }
      unfold x. rewrite split_join_cells.
      * cbn [omap]. rewrite PN, PD, PF, PM, (cell_ok F _ _ CR). reflexivity.
      * discriminate.
      * intros s [<-|[<-|[<-|[<-|[<-|[]]]]]]; try (apply TB; tauto).
        assert (X := TB (w_type r) ltac:(tauto)). rewrite CT in X. rewrite !has_char_app in X. rewrite has_char_app.
        apply orb_false_iff in X. destruct X as [X1 X2]. apply orb_false_iff in X2. destruct X2 as [X2 _]. rewrite X1, X2. reflexivity.
    + unfold parse_row. cbn [List.length Nat.eqb app]. rewrite FX. reflexivity.
Qed.

(** ** The lines of a file *)
Definition unended (e : string) : string :=
  if has_char TAB e then str1 TAB else "".
Lemma unended_space e : space (unended e).
Proof. unfold unended. destruct (has_char TAB e); [apply space_tab|]. intros c H. discriminate H. Qed.

Definition universal (s : string) : string := replace_char CR NL (replace (str1 CR +++ str1 NL) (str1 NL) s).

Lemma replace_char_absent c d s : has_char c s = false -> replace_char c d s = s.
Proof.
  induction s as [|x s IH]; intro H; [reflexivity|]. cbn [has_char] in H. apply orb_false_iff in H. destruct H as [H1 H2].
  cbn [replace_char]. rewrite H1, (IH H2). reflexivity.
Qed.

Lemma no_end_cr b : has_char CR b = false -> forall r, b <> r +++ str1 CR.
Proof. intros H r ->. rewrite has_char_app in H. cbn [str1 has_char] in H. rewrite Ascii.eqb_refl, orb_true_r in H. discriminate H. Qed.

Lemma universal_line b e s : has_char NL b = false -> has_char CR b = false -> In e line_ends ->
  universal (b +++ e +++ s) = (b +++ unended e) +++ String NL (universal s).
Proof.
  intros NB CB I. unfold universal.
  assert (NBT : has_char NL (b +++ str1 TAB) = false) by (rewrite has_char_app, NB; reflexivity).
  assert (CBT : has_char CR (b +++ str1 TAB) = false) by (rewrite has_char_app, CB; reflexivity).
  assert (Q : forall y, has_char CR y = false -> replace_char CR NL (y +++ String NL (replace (str1 CR +++ str1 NL) (str1 NL) s)) =
      y +++ String NL (replace_char CR NL (replace (str1 CR +++ str1 NL) (str1 NL) s))).
  { intros y H. rewrite replace_char_app, (replace_char_absent CR NL y H). reflexivity. }
  destruct I as [<-|[<-|[<-|[<-|[]]]]].
  - change (unended (str1 NL)) with "". rewrite sapp_nil_r. change (str1 NL +++ s) with (String NL s).
    rewrite (replace_skip (str1 CR) NL (str1 NL) s no_nl_cr b NB (no_end_cr b CB)). apply Q, CB.
  - change (unended (str1 TAB +++ str1 NL)) with (str1 TAB).
    replace (b +++ (str1 TAB +++ str1 NL) +++ s) with ((b +++ str1 TAB) +++ String NL s) by (now rewrite sapp_assoc).
    rewrite (replace_skip (str1 CR) NL (str1 NL) s no_nl_cr (b +++ str1 TAB) NBT (no_end_cr _ CBT)). apply Q, CBT.
  - change (unended (str1 CR +++ str1 NL)) with "". rewrite sapp_nil_r. change ((str1 CR +++ str1 NL) +++ s) with (str1 CR +++ String NL s).
    rewrite (replace_end (str1 CR) NL (str1 NL) s no_nl_cr b NB). change (str1 NL +++ ?x) with (String NL x). apply Q, CB.
  - change (unended (str1 TAB +++ str1 CR +++ str1 NL)) with (str1 TAB).
    replace (b +++ (str1 TAB +++ str1 CR +++ str1 NL) +++ s) with ((b +++ str1 TAB) +++ str1 CR +++ String NL s) by (now rewrite sapp_assoc).
    rewrite (replace_end (str1 CR) NL (str1 NL) s no_nl_cr (b +++ str1 TAB) NBT). change (str1 NL +++ ?x) with (String NL x). apply Q, CBT.
Qed.

Lemma split_lines ls : (forall le, In le ls -> has_char NL (fst le) = false /\ has_char CR (fst le) = false /\ In (snd le) line_ends) ->
  split (str1 NL) (universal (sconcat (fun le => fst le +++ snd le) ls)) = map (fun le => fst le +++ unended (snd le)) ls ++ [""].
Proof.
  induction ls as [|[b e] ls IH]; intro H; [reflexivity|]. cbn [sconcat map fst snd app].
  destruct (H (b, e) (or_introl eq_refl)) as [NB [CB I]]. cbn [fst snd] in *. rewrite sapp_assoc, (universal_line b e _ NB CB I), split_app.
  - f_equal. apply IH. intros le IL. apply H. right. exact IL.
  - rewrite has_char_app, NB. unfold unended. destruct (has_char TAB e); reflexivity.
Qed.

Lemma lines_of_lines ls : (forall le, In le ls -> has_char NL (fst le) = false /\ has_char CR (fst le) = false /\ In (snd le) line_ends) ->
  lines_of (sconcat (fun le => fst le +++ snd le) ls) = map (fun le => fst le +++ unended (snd le)) ls.
Proof.
  intro H. unfold lines_of. change (replace_char CR NL (replace (str1 CR +++ str1 NL) (str1 NL) ?x)) with (universal x).
  rewrite (split_lines ls H). cbv zeta. rewrite rev_app_distr. cbn [rev app]. apply rev_involutive.
Qed.

Lemma has_char_join c s l : has_char c s = false -> (forall x, In x l -> has_char c x = false) -> has_char c (join s l) = false.
Proof.
  intro HS. induction l as [|x l IH]; intro H; [reflexivity|]. destruct l as [|y l]; [apply H; left; reflexivity|].
  change (join s (x :: y :: l)) with (x +++ s +++ join s (y :: l)). rewrite !has_char_app, HS, IH, H; [reflexivity|left; reflexivity|].
  intros z I. apply H. right. exact I.
Qed.

(** ** All rows *)
Lemma add_rows_rows F rows ents : Forall2 (fun re ke => row_is F (fst re) ke) rows ents ->
  forall conv, NoDup (dkeys conv ++ map fst ents) ->
  add_rows F head_fields (map (fun re => row_text_of (fst re) +++ unended (snd re)) rows) conv = Ok (conv ++ ents).
Proof.
  induction 1 as [|[r e] [k x] rows ents H HS IH]; intros conv ND; cbn [map add_rows].
  - now rewrite app_nil_r.
  - cbn [fst snd map] in *. destruct (row_ok F r (k, x) (unended e) H (unended_space e)) as [cells [-> ->]].
    assert (NI : ~ In k (dkeys conv)).
    { intro I. apply NoDup_remove_2 in ND. apply ND, in_or_app. left. exact I. }
    assert (DS : dset k x conv = conv ++ [(k, x)]).
    { clear - NI. induction conv as [|[q y] conv IH]; [reflexivity|]. cbn [dset dkeys map fst In] in *.
      destruct (String.eqb_spec k q) as [E|N]; [exfalso; apply NI; left; congruence|]. cbn [app]. f_equal. apply IH. tauto. }
    rewrite DS, IH, <- app_assoc; [reflexivity|]. unfold dkeys in *. rewrite map_app, <- app_assoc. exact ND.
Qed.

Lemma dget_filter {A} (f : string -> bool) (d : dict A) q : dget q (filter (fun ke => f (fst ke)) d) = if f q then dget q d else None.
Proof.
  induction d as [|[k x] d IH]; cbn [filter fst]; [destruct (f q); reflexivity|]. destruct (f k) eqn:FK; cbn [dget].
  - destruct (String.eqb_spec q k) as [->|N]; [rewrite FK; reflexivity|exact IH].
  - rewrite IH. destruct (String.eqb_spec q k) as [->|N]; [rewrite FK; reflexivity|reflexivity].
Qed.
Lemma dget_append {A} (a b : dict A) q : dget q (a ++ b) = match dget q a with Some x => Some x | None => dget q b end.
Proof. induction a as [|[k x] a IH]; [reflexivity|]. cbn [app dget]. destruct (String.eqb q k); [reflexivity|exact IH]. Qed.
Lemma keys_filter {A} (f : string -> bool) (d : dict A) : dkeys (filter (fun ke => f (fst ke)) d) = filter f (dkeys d).
Proof. induction d as [|[k x] d IH]; [reflexivity|]. cbn [filter fst dkeys map]. destruct (f k); cbn [dkeys map]; unfold dkeys in IH; now rewrite IH. Qed.
Lemma dict_ext {A} (a b : dict A) : NoDup (dkeys a) -> dkeys a = dkeys b -> (forall q, dget q a = dget q b) -> a = b.
Proof.
  revert b. induction a as [|[k x] a IH]; intros [|[q y] b] ND K G; try discriminate K; [reflexivity|].
  cbn [dkeys map fst] in *. injection K as <- K. inversion ND as [|z l NI ND']; subst.
  assert (X := G k). cbn [dget] in X. rewrite String.eqb_refl in X. injection X as <-. f_equal.
  apply IH; [exact ND'|exact K|]. intro u. assert (Y := G u). cbn [dget] in Y.
  destruct (String.eqb_spec u k) as [E|N]; [subst u|exact Y].
  rewrite (proj2 (dget_None k a)), (proj2 (dget_None k b)); [reflexivity| |exact NI].
  change (map fst b) with (dkeys b) in K. change (map fst a) with (dkeys a) in K. rewrite <- K. exact NI.
Qed.

Lemma reorder_arranged {A} (d : dict A) : NoDup (dkeys d) -> reorder d = arranged d.
Proof.
  intro ND. destruct (reorder_keys d ND) as [NR KR]. apply dict_ext; [exact NR| |].
  - rewrite KR. unfold arranged. unfold dkeys at 4. rewrite !map_app. 
    change (map fst (filter (fun ke => is_global (fst ke) && negb (is_data (fst ke))) d)) with (dkeys (filter (fun ke => is_global (fst ke) && negb (is_data (fst ke))) d)).
    change (map fst (filter (fun ke => negb (is_global (fst ke)) && negb (is_data (fst ke))) d)) with (dkeys (filter (fun ke => negb (is_global (fst ke)) && negb (is_data (fst ke))) d)).
    change (map fst (filter (fun ke => is_data (fst ke)) d)) with (dkeys (filter (fun ke => is_data (fst ke)) d)).
    rewrite (keys_filter (fun n => is_global n && negb (is_data n))), (keys_filter (fun n => negb (is_global n) && negb (is_data n))), (keys_filter is_data).
    reflexivity.
  - intro q. rewrite (reorder_get d q ND). unfold arranged. rewrite !dget_append.
    rewrite (dget_filter (fun n => is_global n && negb (is_data n))), (dget_filter (fun n => negb (is_global n) && negb (is_data n))), (dget_filter is_data).
    destruct (is_global q), (is_data q); cbn [andb negb]; try reflexivity; destruct (dget q d); reflexivity.
Qed.

Lemma csv_file_lines e0 rows : csv_file e0 rows =
  sconcat (fun le => fst le +++ snd le) ((first_line, e0) :: map (fun re => (row_text_of (fst re), snd re)) rows).
Proof.
  unfold csv_file. cbn [sconcat fst snd]. rewrite sapp_assoc. do 2 f_equal.
  induction rows as [|re rows IH]; [reflexivity|]. cbn [sconcat map fst snd]. now rewrite IH.
Qed.

Lemma csv_ok F e0 rows ents : In e0 line_ends -> (forall re, In re rows -> In (snd re) line_ends) ->
  Forall2 (fun re ke => row_is F (fst re) ke) rows ents -> NoDup (map fst ents) ->
  csv2dict F (csv_file e0 rows) = Ok (arranged ents).
Proof.
  intros IE IR H ND. unfold csv2dict. rewrite csv_file_lines, lines_of_lines.
  - cbn [map fst snd]. rewrite map_map. cbn [fst snd]. rewrite (first_line_ok F _ (unended_space e0)). cbn [tl].
    rewrite (add_rows_rows F rows ents H []) by exact ND. cbn [rbind app]. f_equal. apply reorder_arranged, ND.
  - intros le [<-|I]; [split; [reflexivity|split; [reflexivity|exact IE]]|]. apply in_map_iff in I. destruct I as [re [<- I]]. cbn [fst snd].
    assert (X : exists ke, row_is F (fst re) ke).
    { clear - H I. induction H as [|r0 k0 rows ents H HS IH]; [destruct I|]. destruct I as [<-|I]; eauto. }
    destruct X as [ke [CE _ _]]. split; [|split; [|apply IR, I]]; apply has_char_join; try reflexivity; intros s IS; apply (CE s _ IS); cbn; tauto.
Qed.
