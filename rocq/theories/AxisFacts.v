(** numpy.moveaxis. *)
From Verif Require Import Base PyStr PyNum NdArray Sofa Verify Upgrade SpecInit SpecUpgrade.
From Coq Require Import Lia Permutation.
Open Scope list_scope.
Open Scope nat_scope.

(** ** Multi-indices *)
Lemma nth_error_chunks {A B} (f : A -> list B) p : forall l i j x,
  (forall y, In y l -> List.length (f y) = p) -> nth_error l i = Some x -> j < p ->
  nth_error (flat_map f l) (i * p + j) = nth_error (f x) j.
Proof.
  induction l as [|y l IH]; intros i j x L N J; [destruct i; discriminate|].
  cbn [flat_map]. destruct i as [|i]; cbn in N.
  - inversion N; subst. cbn. apply nth_error_app1. rewrite L by (left; reflexivity). exact J.
  - rewrite nth_error_app2 by (rewrite L by (left; reflexivity); cbn; lia).
    rewrite L by (left; reflexivity).
    replace (S i * p + j - p) with (i * p + j) by (cbn; lia).
    apply IH; [intros z Z; apply L; right; exact Z|exact N|exact J].
Qed.

Lemma indices_length s : List.length (indices s) = prod s.
Proof.
  induction s as [|n s IH]; [reflexivity|]. cbn [indices prod].
  assert (G : forall k l, List.length (flat_map (fun i => map (cons i) (indices s)) (seq k l)) = l * prod s).
  { intros k l. revert k. induction l as [|l IHl]; intro k; [reflexivity|].
    cbn [seq flat_map]. rewrite app_length, map_length, IHl, IH. cbn. lia. }
  apply G.
Qed.

Lemma ravel_lt s : forall idx, in_bounds s idx -> ravel s idx < prod s.
Proof.
  induction s as [|n s IH]; intros idx H; inversion H as [|i n' r s' L R]; subst; cbn; [lia|].
  specialize (IH r R). nia.
Qed.

Lemma seq_nth_error k n i : i < n -> nth_error (seq k n) i = Some (k + i).
Proof.
  revert k i. induction n as [|n IH]; intros k i H; [lia|].
  destruct i as [|i]; cbn; [f_equal; lia|]. rewrite IH by lia. f_equal. lia.
Qed.

Lemma indices_ravel s : forall idx, in_bounds s idx -> nth_error (indices s) (ravel s idx) = Some idx.
Proof.
  induction s as [|n s IH]; intros idx H; inversion H as [|i n' r s' L R]; subst; [reflexivity|].
  cbn [indices ravel].
  rewrite (nth_error_chunks _ (prod s) (seq 0 n) i (ravel s r) i).
  - rewrite nth_error_map, (IH r R). reflexivity.
  - intros y _. rewrite map_length. apply indices_length.
  - rewrite seq_nth_error by exact L. reflexivity.
  - apply ravel_lt. exact R.
Qed.

(** ** Inserting at increasing positions *)
Definition put_all (l : list (nat * nat)) (o : list nat) : list nat :=
  fold_left (fun o p => insert_at (fst p) (snd p) o) l o.

(** number of positions below [j] *)
Definition below (ds : list nat) (j : nat) : nat := List.length (filter (fun d => d <? j) ds).

Fixpoint increasing (ds : list nat) : Prop :=
  match ds with
  | [] => True
  | d :: t => (forall x, In x t -> d < x) /\ increasing t
  end.

Lemma increasing_NoDup ds : increasing ds -> NoDup ds.
Proof.
  induction ds as [|d ds IH]; intros H; constructor; destruct H as [H1 H2].
  - intro I. specialize (H1 d I). lia.
  - auto.
Qed.

Lemma NoDup_range (ds : list nat) a b : NoDup ds -> (forall d, In d ds -> a <= d < b) ->
  List.length ds <= b - a.
Proof.
  intros ND H. rewrite <- (seq_length (b - a) a). apply NoDup_incl_length; [exact ND|].
  intros d I. apply in_seq. specialize (H d I). lia.
Qed.

Lemma below_range ds a b : NoDup ds -> a <= b -> below ds b <= below ds a + (b - a).
Proof.
  intros ND AB. unfold below.
  assert (G : List.length (filter (fun d => d <? b) ds)
     = List.length (filter (fun d => d <? a) ds)
       + List.length (filter (fun d => (a <=? d) && (d <? b)) ds)).
  { clear ND. induction ds as [|d ds IH]; [reflexivity|]. cbn [filter].
    destruct (Nat.ltb_spec d b), (Nat.ltb_spec d a), (Nat.leb_spec a d); cbn [andb]; cbn [List.length]; try lia. }
  rewrite G. apply Nat.add_le_mono_l. apply NoDup_range.
  - apply NoDup_filter. exact ND.
  - intros d I. apply filter_In in I. destruct I as [_ I]. apply andb_true_iff in I. destruct I as [I1 I2].
    apply Nat.leb_le in I1. apply Nat.ltb_lt in I2. lia.
Qed.

Lemma below_strict ds a b : NoDup ds -> ~ In a ds -> a < b -> below ds b < below ds a + (b - a).
Proof.
  intros ND NI AB. assert (H := below_range (a :: ds) a b ltac:(constructor; assumption) ltac:(lia)).
  unfold below in *. cbn [filter] in H. rewrite Nat.ltb_irrefl in H.
  apply Nat.ltb_lt in AB. rewrite AB in H. apply Nat.ltb_lt in AB. cbn [List.length] in H. lia.
Qed.

Lemma insert_at_length i x l : List.length (insert_at i x l) = S (List.length l).
Proof.
  unfold insert_at. rewrite app_length. cbn [List.length].
  assert (H := f_equal (@List.length nat) (firstn_skipn i l)). rewrite app_length in H. lia.
Qed.

Lemma insert_at_perm i x l : Permutation (insert_at i x l) (x :: l).
Proof.
  unfold insert_at. rewrite <- Permutation_middle. rewrite (firstn_skipn i l). reflexivity.
Qed.

Lemma insert_at_nth i x l j : i <= List.length l ->
  nth_error (insert_at i x l) j =
  if j <? i then nth_error l j else if j =? i then Some x else nth_error l (j - 1).
Proof.
  intro L. unfold insert_at. assert (F : List.length (firstn i l) = i) by (rewrite firstn_length; lia).
  destruct (Nat.ltb_spec j i) as [H|H].
  - rewrite nth_error_app1 by lia. revert l j L F H. induction i as [|i IH]; intros l j L F H; [lia|].
    destruct l as [|y l]; [cbn in L; lia|]. destruct j as [|j]; [reflexivity|]. cbn in *. apply IH; lia.
  - rewrite nth_error_app2 by lia. rewrite F. destruct (Nat.eqb_spec j i) as [->|N].
    + rewrite Nat.sub_diag. reflexivity.
    + replace (j - i) with (S (j - 1 - i)) by lia. cbn [nth_error].
      assert (G : forall m k, nth_error (skipn m l) k = nth_error l (m + k)).
      { clear. intros m. revert l. induction m as [|m IH]; intros l k; [reflexivity|].
        destruct l as [|y l]; [destruct k; reflexivity|]. cbn. apply IH. }
      rewrite G. f_equal. lia.
Qed.

Lemma put_all_spec l : forall o n, increasing (map fst l) ->
  (forall d, In d (map fst l) -> d < n) -> List.length o + List.length l = n ->
  List.length (put_all l o) = n
  /\ Permutation (put_all l o) (map snd l ++ o)
  /\ (forall d s, In (d, s) l -> nth_error (put_all l o) d = Some s)
  /\ (forall j, ~ In j (map fst l) -> nth_error (put_all l o) j = nth_error o (j - below (map fst l) j)).
Proof.
  induction l as [|[d s] l IH]; intros o n INC LT LEN; cbn [map fst snd] in *.
  - cbn in *. split; [lia|]. split; [reflexivity|]. split; [intros ? ? []|].
    intros j _. unfold below. cbn. f_equal. lia.
  - destruct INC as [I1 I2]. cbn [List.length] in LEN.
    assert (DL : d <= List.length o).
    { assert (H := NoDup_range (map fst l) (S d) n (increasing_NoDup _ I2)).
      rewrite map_length in H. enough (List.length l <= n - S d) by (specialize (LT d (or_introl eq_refl)); lia).
      apply H. intros x I. split; [apply I1; exact I|apply LT; right; exact I]. }
    destruct (IH (insert_at d s o) n I2) as [R1 [R2 [R3 R4]]].
    { intros x I. apply LT. right. exact I. }
    { rewrite insert_at_length. lia. }
    cbn [put_all fold_left fst snd]. fold (put_all l (insert_at d s o)).
    assert (ND : ~ In d (map fst l)) by (intro I; specialize (I1 d I); lia).
    assert (BD : forall j, j <= S d -> below (map fst l) j = 0).
    { intros j J. unfold below. assert (Z : filter (fun x => x <? j) (map fst l) = []).
      { clear -I1 J. induction (map fst l) as [|x t IHt]; [reflexivity|]. cbn [filter].
        assert (d < x) by (apply I1; left; reflexivity).
        destruct (Nat.ltb_spec x j); [lia|]. apply IHt. intros y Y. apply I1. right. exact Y. }
      rewrite Z. reflexivity. }
    split; [exact R1|]. split; [|split].
    + rewrite R2, insert_at_perm. rewrite <- Permutation_middle. reflexivity.
    + intros d' s' [I|I].
      * inversion I; subst. rewrite (R4 d' ND), BD by lia. rewrite Nat.sub_0_r, insert_at_nth by exact DL.
        rewrite Nat.ltb_irrefl, Nat.eqb_refl. reflexivity.
      * apply R3. exact I.
    + intros j NJ. assert (JD : j <> d) by (intros ->; apply NJ; left; reflexivity).
      rewrite R4 by (intro I; apply NJ; right; exact I). rewrite insert_at_nth by exact DL.
      assert (BC : below (d :: map fst l) j = (if d <? j then 1 else 0) + below (map fst l) j).
      { unfold below. cbn [filter]. destruct (d <? j); reflexivity. }
      rewrite BC. destruct (Nat.ltb_spec d j) as [H|H].
      * assert (B := below_range (map fst l) (S d) j (increasing_NoDup _ I2) ltac:(lia)).
        rewrite (BD (S d)) in B by lia.
        destruct (Nat.ltb_spec (j - below (map fst l) j) d); [lia|].
        destruct (Nat.eqb_spec (j - below (map fst l) j) d); [lia|]. f_equal. lia.
      * rewrite BD by lia. rewrite Nat.sub_0_r.
        destruct (Nat.ltb_spec j d); [f_equal; lia|lia].
Qed.

(** ** Sorting *)
Lemma ins_pair_perm p l : Permutation (ins_pair p l) (p :: l).
Proof.
  induction l as [|q l IH]; [reflexivity|]. cbn [ins_pair]. destruct (fst p <? fst q); [reflexivity|].
  rewrite IH. apply perm_swap.
Qed.

Lemma ins_pair_inc p l : increasing (map fst l) -> ~ In (fst p) (map fst l) ->
  increasing (map fst (ins_pair p l)).
Proof.
  induction l as [|q l IH]; intros HI N; [cbn; split; [intros ? []|trivial]|]. cbn [ins_pair].
  destruct HI as [I1 I2]. destruct (Nat.ltb_spec (fst p) (fst q)) as [H|H].
  - cbn [map increasing]. split; [|split; assumption]. intros x [<-|X]; [exact H|].
    specialize (I1 x X). lia.
  - cbn [map increasing]. cbn [map] in N. split.
    + intros x X. apply (Permutation_in x (Permutation_map fst (ins_pair_perm p l))) in X.
      destruct X as [<-|X]; [|apply I1; exact X]. cbn in N. lia.
    + apply IH; [exact I2|]. intro X. apply N. right. exact X.
Qed.

Lemma sort_pairs_spec l : NoDup (map fst l) ->
  Permutation (sort_pairs l) l /\ increasing (map fst (sort_pairs l)).
Proof.
  unfold sort_pairs.
  assert (G : forall l acc, NoDup (map fst l) -> increasing (map fst acc) ->
    (forall p, In p l -> ~ In (fst p) (map fst acc)) ->
    Permutation (fold_left (fun acc p => ins_pair p acc) l acc) (l ++ acc)
    /\ increasing (map fst (fold_left (fun acc p => ins_pair p acc) l acc))).
  { clear l. induction l as [|p l IH]; intros acc ND I D; [split; [reflexivity|exact I]|].
    cbn [fold_left map] in *. inversion ND as [|x t N1 N2]; subst.
    destruct (IH (ins_pair p acc) N2) as [P1 P2].
    - apply ins_pair_inc; [exact I|]. apply D. left. reflexivity.
    - intros q Q X. apply (Permutation_in _ (Permutation_map fst (ins_pair_perm p acc))) in X.
      destruct X as [X|X]; [|apply (D q); [right; exact Q|exact X]].
      apply N1. rewrite X. apply in_map. exact Q.
    - split; [|exact P2]. rewrite P1, ins_pair_perm. cbn. symmetry. apply Permutation_middle. }
  intro ND. destruct (G l [] ND I) as [P1 P2]; [intros ? ? []|]. rewrite app_nil_r in P1. auto.
Qed.

Lemma nodupb_iff l : nodupb l = true <-> NoDup l.
Proof.
  assert (M : forall n t, nat_mem n t = true <-> In n t).
  { intros n t. unfold nat_mem. rewrite existsb_exists. split.
    - intros [x [I Q]]. apply Nat.eqb_eq in Q. subst. exact I.
    - intro I. exists n. split; [exact I|apply Nat.eqb_refl]. }
  induction l as [|n l IH]; cbn; [split; [constructor|reflexivity]|].
  rewrite andb_true_iff, negb_true_iff, IH. split.
  - intros [H1 H2]. constructor; [|exact H2]. rewrite <- M. congruence.
  - intro H. inversion H as [|x t N1 N2]; subst. split; [|exact N2].
    destruct (nat_mem n l) eqn:Q; [|reflexivity]. apply M in Q. contradiction.
Qed.

Lemma combine_fst {A B} (l : list A) : forall (r : list B), List.length l = List.length r ->
  map fst (combine l r) = l.
Proof. induction l as [|x l IH]; intros [|y r] H; cbn in *; try discriminate; [reflexivity|]. f_equal. apply IH. lia. Qed.
Lemma combine_snd {A B} (l : list A) : forall (r : list B), List.length l = List.length r ->
  map snd (combine l r) = r.
Proof. induction l as [|x l IH]; intros [|y r] H; cbn in *; try discriminate; [reflexivity|]. f_equal. apply IH. lia. Qed.
Lemma combine_nth_In {A B} (l : list A) : forall (r : list B) k x y,
  nth_error l k = Some x -> nth_error r k = Some y -> In (x, y) (combine l r).
Proof.
  induction l as [|a l IH]; intros [|b r] [|k] x y H1 H2; cbn in *; try discriminate.
  - inversion H1; inversion H2; subst. left. reflexivity.
  - right. eapply IH; eassumption.
Qed.

(** ** The order of the axes *)
Lemma moveaxis_order_spec n src dst :
  (forall i, In i src -> i < n) -> (forall i, In i dst -> i < n) -> NoDup src -> NoDup dst ->
  List.length src = List.length dst ->
  axis_order n src dst (moveaxis_order n src dst) /\ NoDup (moveaxis_order n src dst).
Proof.
  intros LS LD NS ND LEN. unfold moveaxis_order.
  set (l := sort_pairs (combine dst src)). set (base := filter _ _).
  destruct (sort_pairs_spec (combine dst src)) as [P I]; [rewrite combine_fst by lia; exact ND|].
  fold l in P, I.
  assert (M : forall i, In i base <-> i < n /\ ~ In i src).
  { intro i. unfold base. rewrite filter_In, in_seq, negb_true_iff. unfold nat_mem.
    rewrite <- not_true_iff_false, existsb_exists. split.
    - intros [A B]. split; [lia|]. intro X. apply B. exists i. split; [exact X|apply Nat.eqb_refl].
    - intros [A B]. split; [lia|]. intros [x [X Y]]. apply Nat.eqb_eq in Y. subst. contradiction. }
  assert (NB : NoDup base) by (apply NoDup_filter, seq_NoDup).
  assert (PA : Permutation (src ++ base) (seq 0 n)).
  { apply NoDup_Permutation; [|apply seq_NoDup|].
    - assert (DJ : forall i, In i src -> ~ In i base) by (intros i A B; apply M in B; tauto).
      clearbody base. clear -NS NB DJ. induction src as [|x t IH]; [exact NB|]. cbn. inversion NS; subst. constructor.
      + rewrite in_app_iff. intros [X|X]; [contradiction|]. apply (DJ x); [left; reflexivity|exact X].
      + apply IH; [assumption|]. intros i A. apply DJ. right. exact A.
    - intro i. rewrite in_app_iff, M, in_seq. split.
      + intros [A|[A B]]; [specialize (LS i A)|]; lia.
      + intros [_ A]. destruct (in_dec Nat.eq_dec i src); [left; assumption|right; split; [lia|assumption]]. }
  assert (LL : List.length l = List.length src).
  { rewrite (Permutation_length P), combine_length. lia. }
  assert (FD : Permutation (map fst l) dst).
  { rewrite (Permutation_map fst P), combine_fst by lia. reflexivity. }
  assert (FS : Permutation (map snd l) src).
  { rewrite (Permutation_map snd P), combine_snd by lia. reflexivity. }
  destruct (put_all_spec l base n I) as [R1 [R2 [R3 R4]]].
  { intros d X. apply LD. apply (Permutation_in _ FD). exact X. }
  { apply Permutation_length in PA. rewrite app_length, seq_length in PA. lia. }
  fold (put_all l base). rewrite FS, PA in R2.
  split; [constructor|].
  - exact R1.
  - intros i H. apply (Permutation_in i (Permutation_sym R2)). apply in_seq. lia.
  - intros k i j S D. apply R3. apply (Permutation_in _ (Permutation_sym P)).
    eapply combine_nth_In; eassumption.
  - intros j1 j2 i1 i2 J N1 N2 S1 S2.
    assert (N1' : ~ In j1 (map fst l)) by (intro X; apply N1; apply (Permutation_in _ FD); exact X).
    assert (N2' : ~ In j2 (map fst l)) by (intro X; apply N2; apply (Permutation_in _ FD); exact X).
    rewrite R4 in S1, S2 by assumption.
    assert (B := below_strict (map fst l) j1 j2 (increasing_NoDup _ I) N1' J).
    assert (B1 := below_range (map fst l) 0 j1 (increasing_NoDup _ I) ltac:(lia)).
    assert (Z : below (map fst l) 0 = 0).
    { unfold below. clear. induction (map fst l) as [|x t IH]; [reflexivity|exact IH]. }
    rewrite Z in B1.
    set (p1 := j1 - below (map fst l) j1) in *. set (p2 := j2 - below (map fst l) j2) in *.
    assert (PP : p1 < p2) by (unfold p1, p2; lia). clearbody p1 p2.
    assert (SI : forall k m, forall q1 q2 x1 x2, q1 < q2 ->
      nth_error (filter (fun i => negb (nat_mem i src)) (seq k m)) q1 = Some x1 ->
      nth_error (filter (fun i => negb (nat_mem i src)) (seq k m)) q2 = Some x2 -> x1 < x2).
    { clear. intros k m. revert k. induction m as [|m IH]; intros k q1 q2 x1 x2 Q A B; [destruct q1; discriminate|].
      cbn [seq filter] in A, B. destruct (negb (nat_mem k src)); [|eapply IH; eassumption].
      destruct q2 as [|q2]; [lia|]. cbn in B. destruct q1 as [|q1]; cbn in A.
      - inversion A; subst. apply nth_error_In in B. apply filter_In in B. destruct B as [B _].
        apply in_seq in B. lia.
      - eapply IH; [|exact A|exact B]. lia. }
    eapply SI; [exact PP|exact S1|exact S2].
  - eapply Permutation_NoDup; [apply Permutation_sym; exact R2|apply seq_NoDup].
Qed.

(** ** Transposing *)
Lemma index_of_nth i l : In i l -> nth_error l (index_of i l) = Some i.
Proof.
  induction l as [|x l IH]; [intros []|]. intros H. cbn. destruct (Nat.eqb_spec i x) as [->|N]; [reflexivity|].
  cbn. apply IH. destruct H; [congruence|assumption].
Qed.

Lemma in_bounds_nth s idx : in_bounds s idx <->
  List.length idx = List.length s /\ forall i, i < List.length s -> nth i idx 0 < nth i s 0.
Proof.
  unfold in_bounds. revert idx. induction s as [|n s IH]; intros [|i idx]; split; intro H.
  - split; [reflexivity|]. cbn. lia.
  - constructor.
  - inversion H.
  - destruct H; discriminate.
  - inversion H.
  - destruct H; discriminate.
  - inversion H; subst. apply IH in H5. destruct H5 as [L N]. split; [cbn; lia|].
    intros [|j] J; cbn; [assumption|]. apply N. cbn in J. lia.
  - destruct H as [L N]. constructor; [exact (N 0 ltac:(cbn; lia))|]. apply IH. split; [cbn in L; lia|].
    intros j J. exact (N (S j) ltac:(cbn; lia)).
Qed.

Lemma nth_map0 (f : nat -> nat) l j i : nth_error l j = Some i -> nth j (map f l) 0 = f i.
Proof. intro H. apply nth_error_nth. rewrite nth_error_map, H. reflexivity. Qed.

Lemma map_nth_seq (l : list nat) : map (fun i => nth i l 0) (seq 0 (List.length l)) = l.
Proof.
  assert (G : forall l pre, map (fun i => nth i (pre ++ l) 0) (seq (List.length pre) (List.length l)) = l).
  { clear l. induction l as [|x l IH]; intro pre; [reflexivity|]. cbn [List.length seq map].
    rewrite app_nth2 by lia. rewrite Nat.sub_diag. cbn [nth]. f_equal.
    specialize (IH (pre ++ [x])). rewrite app_length in IH. cbn [List.length] in IH.
    rewrite Nat.add_1_r in IH. rewrite <- app_assoc in IH. exact IH. }
  exact (G l []).
Qed.

Lemma transpose_spec a order n : wf_arr a = true -> a_ndim a = n -> NoDup order ->
  List.length order = n -> (forall i, i < n -> In i order) ->
  permuted a (transpose a order) order.
Proof.
  intros WF AN ND LEN ALL. subst n. unfold a_ndim in *. unfold wf_arr in WF. apply Nat.eqb_eq in WF.
  set (s := a_shape a) in *.
  assert (LT : forall i, In i order -> i < List.length s).
  { intros i I. assert (IN : incl order (seq 0 (List.length s))).
    { apply NoDup_length_incl; [apply seq_NoDup|rewrite seq_length; lia|].
      intros j J. apply in_seq in J. apply ALL. lia. }
    apply IN in I. apply in_seq in I. lia. }
  set (back := fun idx : list nat => map (fun i => nth0 idx (index_of i order)) (seq 0 (List.length s))).
  assert (BF : forall idx, List.length idx = List.length s ->
    back (map (fun i => nth i idx 0) order) = idx).
  { intros idx L. unfold back, nth0. rewrite <- L. transitivity (map (fun i => nth i idx 0) (seq 0 (List.length idx)));
      [|apply map_nth_seq]. apply map_ext_in. intros i I. apply in_seq in I.
    apply (nth_map0 (fun i => nth i idx 0)). apply index_of_nth. apply ALL. lia. }
  assert (IB : forall idx, in_bounds s idx ->
    in_bounds (map (fun i => nth i s 0) order) (map (fun i => nth i idx 0) order)).
  { intros idx H. apply in_bounds_nth in H. destruct H as [L N]. apply in_bounds_nth. rewrite !map_length.
    split; [reflexivity|]. intros j J. destruct (nth_error order j) as [i|] eqn:Q;
      [|apply nth_error_None in Q; lia].
    rewrite (nth_map0 _ _ _ _ Q), (nth_map0 _ _ _ _ Q). apply N. apply LT. eapply nth_error_In. exact Q. }
  constructor; unfold transpose; cbn [a_kind a_shape a_data]; fold s; unfold nth0; fold back.
  - reflexivity.
  - reflexivity.
  - rewrite map_length, indices_length. reflexivity.
  - intros idx H. split; [apply IB; exact H|]. unfold elem. cbn [a_shape a_data].
    rewrite nth_error_map. fold s. rewrite indices_ravel by (apply IB; exact H). cbn [option_map].
    assert (Q : back (map (fun i => nth i idx 0) order) = idx).
    { apply BF. apply in_bounds_nth in H. apply H. }
    assert (W := ravel_lt s idx H).
    destruct (nth_error (a_data a) (ravel s idx)) as [x|] eqn:NE; [|apply nth_error_None in NE; lia].
    f_equal. apply nth_error_nth. rewrite <- NE. f_equal. f_equal. exact Q.
  - intros idx' H. exists (back idx'). apply in_bounds_nth in H. destruct H as [L N].
    rewrite map_length in *. split.
    + apply in_bounds_nth. unfold back. rewrite map_length, seq_length. split; [reflexivity|].
      intros i I. rewrite (nth_map0 _ _ i i) by (rewrite seq_nth_error by exact I; reflexivity).
      unfold nth0. assert (Q := index_of_nth i order (ALL i I)).
      assert (J : index_of i order < List.length order) by (apply nth_error_Some; congruence).
      specialize (N _ J). rewrite (nth_map0 _ _ _ _ Q) in N. exact N.
    + rewrite <- (map_nth_seq idx') at 1. rewrite L.
      assert (G : forall f g : nat -> nat, forall l : list nat,
        (forall j i, nth_error l j = Some i -> f j = g i) -> map f (seq 0 (List.length l)) = map g l).
      { clear. intros f g l H.
        assert (K : forall l pre, (forall j i, nth_error l j = Some i -> f (pre + j) = g i) ->
          map f (seq pre (List.length l)) = map g l).
        { clear. induction l as [|x l IH]; intros pre H; [reflexivity|]. cbn. f_equal.
          - specialize (H 0 x eq_refl). rewrite Nat.add_0_r in H. exact H.
          - apply IH. intros j i Q. specialize (H (S j) i Q). rewrite Nat.add_succ_r in H. exact H. }
        apply K. exact H. }
      apply G. intros j i Q. unfold back, nth0.
      assert (I : i < List.length s) by (apply LT; eapply nth_error_In; exact Q).
      rewrite (nth_map0 _ _ i i) by (rewrite seq_nth_error by exact I; reflexivity).
      f_equal. assert (Q2 := index_of_nth i order (ALL i I)).
      eapply NoDup_nth_error; [exact ND| |congruence]. apply nth_error_Some. congruence.
Qed.

Theorem moveaxis_spec a src dst b : wf_arr a = true -> moveaxis a src dst = Ok b ->
  exists order, axis_order (a_ndim a) src dst order /\ permuted a b order /\ a_mask b = a_mask a.
Proof.
  intros WF H. unfold moveaxis in H.
  destruct (forallb _ src) eqn:B1; [|discriminate]. destruct (forallb _ dst) eqn:B2; [|discriminate].
  destruct (nodupb src) eqn:B3; [|discriminate]. destruct (nodupb dst) eqn:B4; [|discriminate].
  destruct (Nat.eqb_spec (List.length src) (List.length dst)) as [B5|]; [|discriminate].
  cbn [andb] in H. inversion H; subst b. clear H.
  rewrite forallb_forall in B1, B2. apply nodupb_iff in B3. apply nodupb_iff in B4.
  destruct (moveaxis_order_spec (a_ndim a) src dst) as [A ND]; try assumption.
  - intros i I. apply Nat.ltb_lt. apply B1. exact I.
  - intros i I. apply Nat.ltb_lt. apply B2. exact I.
  - exists (moveaxis_order (a_ndim a) src dst). split; [exact A|]. split; [|reflexivity].
    apply (transpose_spec a _ (a_ndim a)); [exact WF|reflexivity|exact ND|apply A|apply A].
Qed.

(** [numpy.moveaxis] succeeds exactly for existing, distinct axes *)
Lemma moveaxis_ok a src dst :
  (exists b, moveaxis a src dst = Ok b) <->
  (forall i, In i src \/ In i dst -> i < a_ndim a) /\ NoDup src /\ NoDup dst
  /\ List.length src = List.length dst.
Proof.
  unfold moveaxis. split.
  - intros [b H].
    destruct (forallb _ src) eqn:B1; [|discriminate]. destruct (forallb _ dst) eqn:B2; [|discriminate].
    destruct (nodupb src) eqn:B3; [|discriminate]. destruct (nodupb dst) eqn:B4; [|discriminate].
    destruct (Nat.eqb_spec (List.length src) (List.length dst)) as [B5|]; [|discriminate].
    rewrite forallb_forall in B1, B2. apply nodupb_iff in B3. apply nodupb_iff in B4.
    split; [|auto]. intros i [I|I]; apply Nat.ltb_lt; [apply B1|apply B2]; exact I.
  - intros [L [N1 [N2 LL]]]. apply nodupb_iff in N1. apply nodupb_iff in N2. apply Nat.eqb_eq in LL.
    rewrite N1, N2, LL.
    assert (B1 : forallb (fun i => i <? a_ndim a) src = true).
    { apply forallb_forall. intros i I. apply Nat.ltb_lt. apply L. left. exact I. }
    assert (B2 : forallb (fun i => i <? a_ndim a) dst = true).
    { apply forallb_forall. intros i I. apply Nat.ltb_lt. apply L. right. exact I. }
    rewrite B1, B2. cbn. eauto.
Qed.
