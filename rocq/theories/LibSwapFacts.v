(** Lemmas: what the lookups in the directory of the conventions depend on. *)
From Verif Require Import Base PyStr PyNum NdArray Sofa Verify Upgrade Utils Io SpecAttr SpecInit SpecVerify SpecSwap
  BaseFacts StrFacts InitFacts MissingFacts UpgradeFacts RoundFacts UpdateFacts OptionFacts SwapFacts.
From Coq Require Import NArith Lia Permutation.
Open Scope string_scope.
Open Scope list_scope.
Open Scope nat_scope.

(** ** Equal version numbers are equal texts *)
Lemma digits_shift s : forall a n, digits_val s a = Some n ->
  exists q, digits_val s 0 = Some q /\ n = (a * pow10 (String.length s) + q)%N /\ (q < pow10 (String.length s))%N.
Proof.
  induction s as [|c s IH]; intros a n H; cbn [digits_val String.length] in *.
  - injection H as <-. exists 0%N. split; [reflexivity|]. change (pow10 0) with 1%N. lia.
  - destruct (is_digit c) eqn:D; [|discriminate H]. destruct (IH _ _ H) as [q [Q1 [Q2 Q3]]].
    assert (B := digit_val_bound c D).
    assert (X : exists q', digits_val s (0 * 10 + digit_val c) = Some q').
    { destruct (digits_val s (0 * 10 + digit_val c)) eqn:Y; [eauto|]. exfalso.
      assert (Z : forall s a b, digits_val s a = None -> digits_val s b = None).
      { clear. induction s as [|c s IH]; intros a b; cbn; [discriminate|]. destruct (is_digit c); [apply IH|reflexivity]. }
      rewrite (Z s _ (a * 10 + digit_val c)%N Y) in H. discriminate H. }
    destruct X as [q' X]. destruct (IH _ _ X) as [q2 [R1 [R2 R3]]]. rewrite Q1 in R1. injection R1 as <-.
    exists q'. split; [exact X|].
    assert (P : pow10 (S (String.length s)) = (10 * pow10 (String.length s))%N).
    { unfold pow10. rewrite Nat2N.inj_succ, N.pow_succ_r'. reflexivity. }
    rewrite P. nia.
Qed.
Lemma digit_inj c c' : is_digit c = true -> is_digit c' = true -> digit_val c = digit_val c' -> c = c'.
Proof.
  unfold is_digit, digit_val. rewrite !andb_true_iff, !Nat.leb_le. intros H H' Q.
  rewrite <- (ascii_nat_embedding c), <- (ascii_nat_embedding c'). f_equal. cbn in H, H'. apply Nat2N.inj in Q. lia.
Qed.
Lemma digits_inj s : forall t a b n, String.length s = String.length t -> digits_val s a = Some n -> digits_val t b = Some n -> s = t /\ a = b.
Proof.
  induction s as [|c s IH]; intros [|c' t] a b n L H H'; cbn [String.length digits_val] in *; try discriminate L.
  - split; [reflexivity|congruence].
  - destruct (is_digit c) eqn:D; [|discriminate H]. destruct (is_digit c') eqn:D'; [|discriminate H'].
    injection L as L. destruct (IH t _ _ n L H H') as [-> Q].
    assert (B := digit_val_bound c D). assert (B' := digit_val_bound c' D').
    assert (a = b) by lia. subst b. split; [|reflexivity]. f_equal. apply digit_inj; [exact D|exact D'|lia].
Qed.
Lemma digits_large c s n : is_digit c = true -> c <> "0"%char -> digits_val (String c s) 0 = Some n -> (pow10 (String.length s) <= n)%N.
Proof.
  intros D Z H. cbn [digits_val] in H. rewrite D in H. destruct (digits_shift s _ _ H) as [q [_ [-> _]]].
  assert (X := digit_zero c D). destruct (Ascii.eqb_spec c "0") as [Y|_]; [contradiction|]. apply N.eqb_neq in X. nia.
Qed.
Lemma strip0_head c s : strip0 (String c s) = String c s -> c = "0"%char -> s = "".
Proof.
  intros H ->. cbn [strip0] in H. change (Ascii.eqb "0" "0") with true in H. cbn [andb] in H.
  destruct (String.eqb_spec s "") as [Q|_]; [exact Q|]. cbn [negb] in H.
  assert (L := strip0_le s). rewrite H in L. cbn [String.length] in L. lia.
Qed.
Lemma pow10_mono a b : a <= b -> (pow10 a <= pow10 b)%N.
Proof. intro H. unfold pow10. apply N.pow_le_mono_r; lia. Qed.
Lemma pow10_add a b : pow10 (a + b) = (pow10 a * pow10 b)%N.
Proof. unfold pow10. rewrite Nat2N.inj_add, N.pow_add_r. reflexivity. Qed.

Lemma plain_inj i j n : strip0 i = i -> strip0 j = j -> i <> "" -> j <> "" ->
  digits_val i 0 = Some n -> digits_val j 0 = Some n -> i = j.
Proof.
  assert (W : forall i j, strip0 j = j -> i <> "" -> digits_val i 0 = Some n -> digits_val j 0 = Some n -> String.length i < String.length j -> False).
  { clear. intros i j S N H H' L. destruct j as [|c j]; [cbn in L; lia|].
    assert (D : is_digit c = true). { cbn in H'. destruct (is_digit c); [reflexivity|discriminate H']. }
    destruct i as [|c0 i]; [destruct (N eq_refl)|]. destruct (Ascii.eqb_spec c "0") as [Z|Z].
    - rewrite (strip0_head c j S Z) in L. cbn in L. lia.
    - assert (B := digits_large c j n D Z H'). destruct (digits_shift _ _ _ H) as [q [Q1 [_ Q3]]]. rewrite H in Q1. injection Q1 as <-.
      cbn [String.length] in L. assert (M := pow10_mono (String.length (String c0 i)) (String.length j)). cbn [String.length] in M, Q3.
      assert (X := M ltac:(lia)). lia. }
  intros S1 S2 N1 N2 H1 H2.
  destruct (lt_eq_lt_dec (String.length i) (String.length j)) as [[L|L]|L].
  - exfalso. exact (W i j S2 N1 H1 H2 L).
  - exact (proj1 (digits_inj i j _ _ n L H1 H2)).
  - exfalso. exact (W j i S1 N2 H2 H1 L).
Qed.

Lemma canonical v : float_str v = Some v -> exists i f n q, v = i +++ "." +++ f /\ i <> "" /\ f <> "" /\ strip0 i = i /\ strip0 (srev f) = srev f
  /\ digits_val i 0 = Some n /\ digits_val f 0 = Some q /\ (q < pow10 (String.length f))%N
  /\ parse_float v = Some (Dec (n * pow10 (String.length f) + q) (String.length f)).
Proof.
  unfold float_str, parse_float. intro H. assert (J := split_join "." v). change (str1 ".") with "." in J.
  destruct (split "." v) as [|i [|f [|]]] eqn:S; try discriminate H.
  - destruct (String.eqb_spec i "") as [->|N]; [discriminate H|]. destruct (digits_val i 0) as [m|] eqn:D; [|discriminate H].
    cbn [join] in J. injection H as H. exfalso. assert (X : has_char "." v = true).
    { rewrite <- H, has_char_app. cbn. apply orb_true_r. }
    rewrite <- J, (digits_no_dot i 0%N) in X; [discriminate X|congruence].
  - destruct (String.eqb_spec i "") as [->|N1]; [discriminate H|]. destruct (String.eqb_spec f "") as [->|N2]; [discriminate H|].
    cbn [orb] in H |- *. destruct (digits_val (i +++ f) 0) as [m|] eqn:D; [|discriminate H].
    rewrite digits_val_app in D. destruct (digits_val i 0) as [n|] eqn:DI; [|discriminate D].
    destruct (digits_shift f n m D) as [q [DF [-> B]]].
    cbn [join] in J. injection H as H. rewrite <- J in H at 1.
    destruct (split_unique "." (strip0 i) (srev (strip0 (srev f))) i f) as [SI SF];
      [apply (digits_no_dot i 0%N); congruence|apply (digits_no_dot f 0%N); congruence|exact H|].
    exists i, f, n, q. rewrite <- J. assert (SF' : strip0 (srev f) = srev f) by (rewrite <- SF at 2; rewrite srev_srev; reflexivity).
    repeat match goal with |- _ /\ _ => split end; auto.
Qed.
(** the last digit of the decimals *)
Lemma last_digit f q : f <> "" -> strip0 (srev f) = srev f -> digits_val f 0 = Some q -> f = "0" \/ (q mod 10 <> 0)%N.
Proof.
  intros N S D. assert (R := srev_srev f). destruct (srev f) as [|c t] eqn:SR; [cbn in R; congruence|].
  rewrite srev_cons in R. destruct (Ascii.eqb_spec c "0") as [Z|Z].
  - left. rewrite <- R, (strip0_head c t S Z), Z. reflexivity.
  - right. rewrite <- R, digits_val_app in D. destruct (digits_val (srev t) 0) as [x|]; [|discriminate D]. cbn [digits_val] in D.
    destruct (is_digit c) eqn:DC; [|discriminate D]. injection D as <-.
    assert (B := digit_val_bound c DC). assert (X := digit_zero c DC). destruct (Ascii.eqb_spec c "0") as [Y|_]; [contradiction|]. apply N.eqb_neq in X.
    rewrite N.add_comm, N.mod_add by discriminate. rewrite N.mod_small by exact B. exact X.
Qed.

Lemma same_number v w a b : float_str v = Some v -> float_str w = Some w -> parse_float v = Some a -> parse_float w = Some b ->
  dec_ltb a b = false -> dec_ltb b a = false -> v = w.
Proof.
  intros FV FW PV PW. rewrite !dec_ltb_false. intros H1 H2.
  destruct (canonical v FV) as [i [f [n [q [-> [I1 [F1 [SI [SF [DI [DF [B PV']]]]]]]]]]]]. rewrite PV' in PV. injection PV as <-.
  destruct (canonical w FW) as [i' [f' [n' [q' [-> [I1' [F1' [SI' [SF' [DI' [DF' [B' PW']]]]]]]]]]]]. rewrite PW' in PW. injection PW as <-.
  cbn [dm ds] in H1, H2. assert (Q := N.le_antisymm _ _ H2 H1). clear H1 H2 PV' PW'.
  assert (Z : forall f f' n n' q q', f <> "" -> f' <> "" -> strip0 (srev f') = srev f' -> digits_val f' 0 = Some q' ->
     ((n * pow10 (String.length f) + q) * pow10 (String.length f') = (n' * pow10 (String.length f') + q') * pow10 (String.length f))%N ->
     String.length f < String.length f' -> False).
  { clear. intros f f' n n' q q' N N' SS D Q L. destruct (last_digit f' q' N' SS D) as [->|M].
    - destruct f; [destruct (N eq_refl)|cbn in L; lia].
    - apply M. set (k := String.length f' - String.length f - 1). replace (String.length f') with (String.length f + S k) in Q by (unfold k; lia).
      rewrite !pow10_add in Q. assert (P := pow10_pos (String.length f)).
      assert (P1 : pow10 (S k) = (10 * pow10 k)%N) by (unfold pow10; rewrite Nat2N.inj_succ, N.pow_succ_r'; reflexivity). rewrite P1 in Q.
      assert (R : (q' = (n * pow10 (String.length f) + q - n' * pow10 (String.length f)) * pow10 k * 10)%N).
      { rewrite !N.mul_sub_distr_r.
        assert (T : ((n * pow10 (String.length f) + q) * (10 * pow10 k) = n' * (pow10 (String.length f) * (10 * pow10 k)) + q')%N).
        { apply (N.mul_cancel_r _ _ (pow10 (String.length f))); [lia|]. lia. }
        lia. }
      rewrite R. apply N.mod_mul. discriminate. }
  assert (L : String.length f = String.length f').
  { destruct (lt_eq_lt_dec (String.length f) (String.length f')) as [[L|L]|L]; [exfalso|exact L|exfalso].
    - exact (Z f f' n n' q q' F1 F1' SF' DF' Q L).
    - exact (Z f' f n' n q' q F1' F1 SF DF (eq_sym Q) L). }
  rewrite <- L in Q, B'. apply N.mul_cancel_r in Q; [|assert (P := pow10_pos (String.length f)); lia].
  assert (P := pow10_pos (String.length f)).
  assert (n = n' /\ q = q') as [<- <-].
  { assert (X1 : (n = (n * pow10 (String.length f) + q) / pow10 (String.length f))%N) by (rewrite N.div_add_l by lia; rewrite N.div_small by exact B; lia).
    assert (X2 : (n' = (n' * pow10 (String.length f) + q') / pow10 (String.length f))%N) by (rewrite N.div_add_l by lia; rewrite N.div_small by exact B'; lia).
    rewrite Q, <- X2 in X1. subst n'. split; [reflexivity|lia]. }
  rewrite (plain_inj i i' n SI SI' I1 I1' DI DI'), (proj1 (digits_inj f f' 0%N 0%N q L DF DF')). reflexivity.
Qed.

(** ** Permuted files *)
Lemma rmap_perm {A B} (f : A -> res B) l l' : Permutation l l' -> forall r, rmap f l = Ok r -> exists r', rmap f l' = Ok r' /\ Permutation r r'.
Proof.
  induction 1 as [|x l l' P IH|x y l|l1 l2 l3 P1 IH1 P2 IH2]; intros r H.
  - exists r. split; [exact H|reflexivity].
  - cbn [rmap] in *. destruct (f x) as [b|]; [|discriminate H]. cbn [rbind] in *.
    destruct (rmap f l) as [t|]; [|discriminate H]. cbn [rbind] in H. injection H as <-.
    destruct (IH t eq_refl) as [t' [T1 T2]]. rewrite T1. exists (b :: t'). split; [reflexivity|constructor; exact T2].
  - cbn [rmap] in *. destruct (f y) as [b|]; [|discriminate H]. cbn [rbind] in *. destruct (f x) as [c|]; [|discriminate H]. cbn [rbind] in *.
    destruct (rmap f l) as [t|]; [|discriminate H]. cbn [rbind] in *. injection H as <-. exists (c :: b :: t). split; [reflexivity|constructor].
  - destruct (IH1 r H) as [r2 [R1 R2]]. destruct (IH2 r2 R1) as [r3 [R3 R4]]. exists r3. split; [exact R3|]. etransitivity; eassumption.
Qed.

Definition plain_version (x : string * string) : Prop := float_str (snd x) = Some (snd x).
Definition named_version (c v : string) (x : string * string) : bool := String.eqb (fst x) c && String.eqb (snd x) v.
Lemma found_spec c v nv : Forall plain_version nv -> forall b,
  rfold (fun b (cv : string * string) => if String.eqb (fst cv) c
          then match float_str (snd cv) with None => Err (Exn EValueError (snd cv)) | Some f => Ok (b || String.eqb f v) end
          else Ok b) nv b = Ok (b || existsb (named_version c v) nv).
Proof.
  unfold named_version. induction 1 as [|x nv P F IH]; intro b; cbn [rfold existsb]; [rewrite orb_false_r; reflexivity|].
  destruct (String.eqb (fst x) c); cbn [andb]; [|apply IH]. unfold plain_version in P. rewrite P. cbn [rbind]. rewrite IH, orb_assoc. reflexivity.
Qed.
Lemma existsb_perm {A} (f : A -> bool) l l' : Permutation l l' -> existsb f l = existsb f l'.
Proof.
  intro P. apply Bool.eq_true_iff_eq. rewrite !existsb_exists.
  split; intros [x [I F]]; exists x; (split; [|exact F]); eapply Permutation_in; try exact I; [exact P|symmetry; exact P].
Qed.
Lemma smem_perm k l l' : Permutation l l' -> smem k l = smem k l'.
Proof.
  intro P. apply Bool.eq_true_iff_eq. rewrite !smem_In. split; apply Permutation_in; [exact P|symmetry; exact P].
Qed.

Lemma db_ok_perm E d : db_ok E -> Permutation (db E) d -> db_ok (with_db E d).
Proof.
  intros [ND OK] P. split.
  - cbn [with_db db]. eapply Permutation_NoDup; [|exact ND]. apply Permutation_map. exact P.
  - intros f I. cbn [with_db db] in I. apply OK. eapply Permutation_in; [symmetry; exact P|exact I].
Qed.

Lemma verify_cv_perm E d v c : db_ok E -> Permutation (db E) d ->
  verify_convention_and_version (with_db E d) v c = verify_convention_and_version E v c.
Proof.
  intros DB P. destruct (name_version_spec E DB) as [nv [N1 N2]].
  assert (PL : Forall plain_version nv).
  { clear N1 P. induction N2 as [|f x l nv [_ H] F IH]; constructor; [exact H|exact IH]. }
  destruct (rmap_perm _ (db E) d P nv N1) as [nv' [N1' P']].
  assert (PL' : Forall plain_version nv') by (eapply Permutation_Forall; eassumption).
  unfold verify_convention_and_version. unfold get_name_version at 1. cbn [with_db db]. rewrite N1'.
  rewrite N1. cbn [rbind]. rewrite (smem_perm c _ _ (Permutation_map fst P')).
  destruct (negb (smem c (map fst nv'))); [reflexivity|]. rewrite (found_spec c v nv' PL'). idtac. rewrite (found_spec c v nv PL). cbn [rbind orb].
  rewrite (existsb_perm _ _ _ P'). reflexivity.
Qed.

Lemma load_perm E d c v : db_ok E -> Permutation (db E) d ->
  match load_convention E c v, load_convention (with_db E d) c v with
  | Ok a, Ok b => a = b | Err (Exn k _), Err (Exn k' _) => k = k' | _, _ => False end.
Proof.
  intros DB P. assert (DB' := db_ok_perm E d DB P).
  assert (HF : forall v x, has_file E c v x <-> has_file (with_db E d) c v x).
  { intros w x. unfold has_file. cbn [with_db db]. split; apply Permutation_in; [exact P|symmetry; exact P]. }
  destruct (String.eqb_spec v "latest") as [->|NL].
  - destruct (load_latest E c DB) as [A B]. destruct (load_latest _ c DB') as [A' B'].
    destruct (load_convention E c "latest") as [cv|[k m]] eqn:L.
    + destruct (load_own_version E _ _ _ DB L) as [w [LW [_ [_ [_ SV]]]]].
      assert (EX : exists v content, has_file E c v content).
      { destruct (load_convention_file _ _ _ _ L) as [f [F1 [F2 _]]]. destruct (file_ok_prefix f c (proj2 DB f F1) F2) as [v' [W1 _]].
        exists v', (snd f). unfold has_file, file_name. rewrite <- W1. destruct f; exact F1. }
      destruct (A EX) as [v1 [x1 [d1 [H1 [L1 [P1 M1]]]]]]. injection L1 as ->.
      destruct (A' (ex_intro _ v1 (ex_intro _ x1 (proj1 (HF _ _) H1)))) as [v2 [x2 [d2 [H2 [L2 [P2 M2]]]]]]. rewrite L2.
      destruct (M1 v2 x2 (proj2 (HF _ _) H2)) as [d2' [Q2 B2]]. rewrite P2 in Q2. injection Q2 as <-.
      destruct (M2 v1 x1 (proj1 (HF _ _) H1)) as [d1' [Q1 B1]]. rewrite P1 in Q1. injection Q1 as <-.
      destruct (has_file_version E c v1 x1 DB H1) as [_ [F1 _]]. destruct (has_file_version _ c v2 x2 DB' H2) as [_ [F2 _]].
      assert (v1 = v2) by exact (same_number v1 v2 d1 d2 F1 F2 P1 P2 B2 B1). subst v2.
      assert (Q : (file_name c v1, x1) = (file_name c v1, x2)).
      { apply (NoDup_map_inj fst (db E) (file_name c v1, x1) (file_name c v1, x2) (proj1 DB) H1 (proj2 (HF _ _) H2)). reflexivity. }
      injection Q as ->. reflexivity.
    + assert (NF : forall v content, ~ has_file E c v content).
      { intros w x H. destruct (A (ex_intro _ w (ex_intro _ x H))) as [v1 [x1 [d1 [_ [L1 _]]]]]. discriminate L1. }
      destruct (B NF) as [m1 Q]. injection Q as -> _.
      destruct (B' (fun w x H => NF w x (proj2 (HF _ _) H))) as [m2 Q']. rewrite Q'. reflexivity.
  - destruct (MissingFacts.load_version E c v DB NL) as [A B]. destruct (MissingFacts.load_version _ c v DB' NL) as [A' B'].
    destruct (load_convention E c v) as [cv|[k m]] eqn:L.
    + destruct (load_has_file E c v cv DB NL L) as [x [H ->]]. rewrite (A' x (proj1 (HF _ _) H)). reflexivity.
    + assert (NF : forall content, ~ has_file E c v content) by (intros x H; specialize (A x H); discriminate A).
      destruct (B NF) as [m1 Q]. injection Q as -> _.
      destruct (B' (fun x H => NF x (proj2 (HF _ _) H))) as [m2 Q']. rewrite Q'. reflexivity.
Qed.

(** ** Files of another convention *)
Lemma new_name n v : has_char "_" n = false -> has_char "_" v = false ->
  name_version_of (n +++ "_" +++ v +++ ".json") = Ok (n, v).
Proof.
  intros N V. unfold name_version_of. change (split "_") with (split (str1 "_")).
  change (n +++ "_" +++ v +++ ".json") with (n +++ String "_" (v +++ ".json")). rewrite (split_app "_" n _ N), split_no_char.
  - rewrite (drop_end_app _ ".json"). reflexivity.
  - rewrite has_char_app, V. reflexivity.
Qed.
Lemma new_prefix n v c : has_char "_" n = false -> has_char "_" v = false -> c <> n ->
  startswith (c +++ "_") (n +++ "_" +++ v +++ ".json") = false.
Proof.
  intros N V NE. destruct (startswith (c +++ "_") (n +++ "_" +++ v +++ ".json")) eqn:S; [exfalso|reflexivity].
  apply prefix_spec in S. destruct S as [r S]. rewrite sapp_assoc in S. cbn in S. symmetry in S.
  apply split_unique in S; [destruct S as [-> _]; exact (NE eq_refl)|exact N|rewrite has_char_app, V; reflexivity].
Qed.

Lemma inserted_names n l l' : has_char "_" n = false -> inserted n l l' ->
  match rmap (fun f : string * convention => name_version_of (fst f)) l, rmap (fun f : string * convention => name_version_of (fst f)) l' with
  | Ok a, Ok b => filter (fun x => negb (String.eqb (fst x) n)) a = filter (fun x => negb (String.eqb (fst x) n)) b
  | Err e, Err e' => e = e'
  | _, _ => False
  end.
Proof.
  intros N. induction 1 as [|f l l' I IH|v cv l l' V I IH]; cbn [rmap].
  - reflexivity.
  - destruct (name_version_of (fst f)) as [x|e]; cbn [rbind]; [|reflexivity].
    destruct (rmap _ l), (rmap _ l'); cbn [rbind]; try contradiction; [|exact IH]. cbn [filter]. rewrite IH. reflexivity.
  - cbn [fst]. rewrite (new_name n v N V). cbn [rbind].
    destruct (rmap _ l), (rmap _ l'); cbn [rbind]; try contradiction; [|exact IH]. cbn [filter fst]. rewrite eqb_refl_s. exact IH.
Qed.
Lemma inserted_files n l l' c : has_char "_" n = false -> c <> n -> inserted n l l' ->
  filter (fun f : string * convention => startswith (c +++ "_") (fst f)) l = filter (fun f : string * convention => startswith (c +++ "_") (fst f)) l'.
Proof.
  intros N NE. induction 1 as [|f l l' I IH|v cv l l' V I IH]; cbn [filter].
  - reflexivity.
  - rewrite IH. reflexivity.
  - cbn [fst]. rewrite (new_prefix n v c N V NE). exact IH.
Qed.
Lemma smem_filter c n (l : list (string * string)) : c <> n -> smem c (map fst l) = smem c (map fst (filter (fun x => negb (String.eqb (fst x) n)) l)).
Proof.
  intro NE. apply Bool.eq_true_iff_eq. rewrite !smem_In, !in_map_iff.
  split; intros [x [Q I]]; exists x; (split; [exact Q|]).
  - apply filter_In. split; [exact I|]. rewrite Q, (eqb_neq_s _ _ NE). reflexivity.
  - apply filter_In in I. exact (proj1 I).
Qed.
Lemma rfold_filter {B} c n (g : B -> string * string -> res B) (l : list (string * string)) : c <> n -> forall b,
  (forall b x, String.eqb (fst x) c = false -> g b x = Ok b) ->
  rfold g l b = rfold g (filter (fun x => negb (String.eqb (fst x) n)) l) b.
Proof.
  intros NE b G. revert b. induction l as [|x l IH]; intro b; [reflexivity|]. cbn [rfold filter].
  destruct (String.eqb_spec (fst x) n) as [Q|Q]; cbn [negb].
  - rewrite G by (rewrite Q; apply eqb_neq_s; congruence). apply IH.
  - cbn [rfold]. destruct (g b x); cbn; [apply IH|reflexivity].
Qed.
Lemma verify_cv_inserted E d n v c : has_char "_" n = false -> inserted n (db E) d -> c <> n ->
  verify_convention_and_version (with_db E d) v c = verify_convention_and_version E v c.
Proof.
  intros N I NE. assert (X := inserted_names n _ _ N I). unfold verify_convention_and_version.
  unfold get_name_version. cbn [with_db db].
  destruct (rmap _ (db E)) as [a|e], (rmap _ d) as [b|e']; try contradiction; cbn [rbind]; [|congruence].
  rewrite (smem_filter c n a NE), (smem_filter c n b NE), X. destruct (negb _); [reflexivity|].
  assert (Y : forall l, rfold (fun b (cv : string * string) => if String.eqb (fst cv) c
          then match float_str (snd cv) with None => Err (Exn EValueError (snd cv)) | Some f => Ok (b || String.eqb f v) end
          else Ok b) l false = rfold (fun b (cv : string * string) => if String.eqb (fst cv) c
          then match float_str (snd cv) with None => Err (Exn EValueError (snd cv)) | Some f => Ok (b || String.eqb f v) end
          else Ok b) (filter (fun x => negb (String.eqb (fst x) n)) l) false).
  { intro l. apply (rfold_filter c n); [exact NE|]. intros b0 x Q. rewrite Q. reflexivity. }
  rewrite (Y a), (Y b), X. reflexivity.
Qed.
Lemma load_inserted E d n v c : has_char "_" n = false -> inserted n (db E) d -> c <> n ->
  load_convention (with_db E d) c v = load_convention E c v.
Proof.
  intros N I NE. assert (X := inserted_names n _ _ N I). unfold load_convention. unfold get_name_version. cbn [with_db db].
  rewrite <- (inserted_files n (db E) d c N NE I).
  destruct (rmap _ (db E)) as [a|e], (rmap _ d) as [b|e']; try contradiction; cbn [rbind]; [reflexivity|congruence].
Qed.
