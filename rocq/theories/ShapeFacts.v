(** Detection of the sizes and check of the shapes against the
    specification. *)
From Verif Require Import Base PyStr PyNum NdArray Sofa Verify SpecAttr SpecInit SpecVerify
  BaseFacts StrFacts AttrFacts OpFacts InitFacts ProtFacts AddDelFacts MissingFacts CoreFacts
  ValidFacts.
From Coq Require Import NArith.
Open Scope string_scope.
Open Scope list_scope.

(** ** The loop that detects sizes as a map *)
Definition upd (l : list (string * nat)) (a : dict nat) : dict nat :=
  fold_left (fun a p => dset (fst p) (snd p) a) l a.

Definition found := (list (string * nat) * nat)%type.

Lemma upd_app l1 l2 a : upd (l1 ++ l2) a = upd l2 (upd l1 a).
Proof. apply fold_left_app. Qed.

Lemma fold_max l : forall a, fold_left Nat.max l a = Nat.max a (fold_left Nat.max l 0).
Proof.
  induction l as [|x l IH]; intro a; cbn; [lia|]. rewrite (IH (Nat.max a x)), (IH x). lia.
Qed.

Lemma dfold_map {A} (p : A -> res found) (f : dacc -> A -> dacc * res unit) :
  (forall s x l m, p x = Ok (l, m) -> f s x = ((upd l (fst s), Nat.max (snd s) m), Ok tt)) ->
  (forall s x e, p x = Err e -> snd (f s x) = Err e) ->
  forall l s,
    (forall rs, rmap p l = Ok rs ->
       dfold f l s = ((upd (List.concat (map fst rs)) (fst s),
                       fold_left Nat.max (map snd rs) (snd s)), Ok tt))
    /\ (forall e, rmap p l = Err e -> snd (dfold f l s) = Err e).
Proof.
  intros H1 H2. induction l as [|x l IH]; intro s; cbn [rmap dfold].
  - split; [|discriminate]. intros rs Q. inversion Q; subst. destruct s; reflexivity.
  - destruct (p x) as [[lx m]|e] eqn:P; cbn [rbind].
    + rewrite (H1 s x lx m P). destruct (IH (upd lx (fst s), Nat.max (snd s) m)) as [I1 I2].
      destruct (rmap p l) as [rs|e]; cbn [rbind].
      * split; [|discriminate]. intros rs' Q. inversion Q; subst. rewrite (I1 rs eq_refl).
        cbn [map fst snd List.concat fold_left]. rewrite upd_app. reflexivity.
      * split; [discriminate|]. intros e' Q. rewrite (I2 e' Q). reflexivity.
    + split; [discriminate|]. intros e' Q. inversion Q; subst. assert (F := H2 s x e' P).
      destruct (f s x) as [s1 [u|e]]; cbn in *; [discriminate|exact F].
Qed.

(** one letter *)
Definition letter_found (key : string) (v : value) (ic : nat * ascii) : res found :=
  if is_lower_ascii (snd ic) then
    let? arr := nd_newaxis v 4 in
    match nth_error (a_shape arr) (fst ic) with
    | Some n => Ok ([(str1 (upper_char (snd ic)), n)], 0)
    | None => Err (Exn EIndexError "tuple index out of range")
    end
  else if Ascii.eqb (snd ic) "S" then
    let? ss := size_and_shape v key in Ok ([], fst ss)
  else Ok ([], 0).

Lemma lower_not_ICS c : is_lower_ascii c = true -> has_char c "ICS" = false.
Proof.
  intro H. cbn. destruct (Ascii.eqb_spec c "I") as [->|]; [discriminate|].
  destruct (Ascii.eqb_spec c "C") as [->|]; [discriminate|].
  destruct (Ascii.eqb_spec c "S") as [->|]; [discriminate|]. reflexivity.
Qed.

Lemma detect_char_found key v s ic :
  (forall l m, letter_found key v ic = Ok (l, m) ->
     detect_char key v s ic = ((upd l (fst s), Nat.max (snd s) m), Ok tt))
  /\ (forall e, letter_found key v ic = Err e -> snd (detect_char key v s ic) = Err e).
Proof.
  destruct ic as [i c], s as [a S_]. unfold letter_found, detect_char. cbn [fst snd].
  destruct (is_lower_ascii c) eqn:L.
  - rewrite (lower_not_ICS c L). cbn [negb andb]. destruct (nd_newaxis v 4) as [arr|e]; cbn [rbind].
    + destruct (nth_error (a_shape arr) i) as [n|].
      * split; [|discriminate]. intros l m Q. inversion Q; subst. rewrite Nat.max_0_r. reflexivity.
      * split; [discriminate|]. intros e Q. inversion Q; subst. reflexivity.
    + split; [discriminate|]. intros e' Q. inversion Q; subst. reflexivity.
  - rewrite andb_false_r. destruct (Ascii.eqb c "S").
    + destruct (size_and_shape v key) as [[n sh]|e]; cbn [rbind fst].
      * split; [|discriminate]. intros l m Q. inversion Q; subst. reflexivity.
      * split; [discriminate|]. intros e' Q. inversion Q; subst. reflexivity.
    + split; [|discriminate]. intros l m Q. inversion Q; subst. rewrite Nat.max_0_r. reflexivity.
Qed.

(** one variable *)
Definition key_found (o : sofa) (key : string) : res found :=
  let? v := getattr o key in
  let? d := dims_of o key in
  let? rs := rmap (letter_found key v) (enum (chars (first_alt d))) in
  Ok (List.concat (map fst rs), fold_left Nat.max (map snd rs) 0).

Lemma detect_key_found o s key :
  (forall l m, key_found o key = Ok (l, m) ->
     detect_key o s key = ((upd l (fst s), Nat.max (snd s) m), Ok tt))
  /\ (forall e, key_found o key = Err e -> snd (detect_key o s key) = Err e).
Proof.
  unfold key_found, detect_key.
  destruct (getattr o key) as [v|e]; cbn [rbind];
    [|split; [discriminate|intros e' Q; inversion Q; reflexivity]].
  destruct (dims_of o key) as [d|e]; cbn [rbind];
    [|split; [discriminate|intros e' Q; inversion Q; reflexivity]].
  destruct (dfold_map (letter_found key v) (detect_char key v)
     (fun s x l m => proj1 (detect_char_found key v s x) l m)
     (fun s x e => proj2 (detect_char_found key v s x) e)
     (enum (chars (first_alt d))) s) as [F1 F2].
  destruct (rmap (letter_found key v) (enum (chars (first_alt d)))) as [rs|e]; cbn [rbind].
  - split; [|discriminate]. intros l m Q. inversion Q; subst. rewrite (F1 rs eq_refl).
    rewrite (fold_max _ (snd s)). reflexivity.
  - split; [discriminate|]. intros e' Q. inversion Q; subst. apply F2. reflexivity.
Qed.

Lemma detect_map o :
  (forall rs, rmap (key_found o) (dim_keys o) = Ok rs ->
     detect o = ((upd (List.concat (map fst rs)) [], fold_left Nat.max (map snd rs) 0), Ok tt))
  /\ (forall e, rmap (key_found o) (dim_keys o) = Err e -> snd (detect o) = Err e).
Proof.
  apply (dfold_map (key_found o) (detect_key o)
     (fun s x l m => proj1 (detect_key_found o s x) l m)
     (fun s x e => proj2 (detect_key_found o s x) e)).
Qed.

Lemma enum_indexed s : enum (chars s) = indexed 0 s.
Proof.
  unfold enum. generalize 0. induction s as [|c s IH]; intro i; [reflexivity|].
  cbn. f_equal. apply IH.
Qed.

(** ** Strings *)
Lemma Forall2_impl' {A B} (P Q : A -> B -> Prop) l r :
  (forall x y, P x y -> Q x y) -> Forall2 P l r -> Forall2 Q l r.
Proof. intros H F. induction F; constructor; auto. Qed.

Lemma elt_len_iff x l : elt_len x = Ok l <->
  exists s, (x = EStr s \/ x = EByt s) /\ String.length s = l.
Proof.
  split.
  - destruct x; cbn; intro H; try discriminate; inversion H; subst; eauto.
  - intros [s [[->| ->] <-]]; reflexivity.
Qed.

Lemma size_and_shape_iff v key n s :
  size_and_shape v key = Ok (n, s) <->
  exists ls, strings v s ls /\ n = max_list ls.
Proof.
  split.
  - unfold size_and_shape. destruct v as [b t|e|a|l]; try discriminate.
    + intro H. inversion H; subst. exists [String.length t]. split; [constructor|reflexivity].
    + destruct (a_data a) as [|x d] eqn:DA; [discriminate|].
      intro H. apply rbind_Ok in H. destruct H as [ls [H1 H2]].
      destruct (a_shape a) as [|m rest] eqn:SA; [discriminate|].
      destruct ((1 <? m)%nat && negb (Nat.eqb (prod rest) 1)) eqn:B; [discriminate|].
      inversion H2; subst. exists ls. split; [|reflexivity]. constructor.
      * exact SA.
      * apply andb_false_iff in B. destruct B as [B|B].
        -- left. apply Nat.ltb_ge in B. exact B.
        -- right. apply negb_false_iff in B. apply Nat.eqb_eq in B. exact B.
      * rewrite DA. discriminate.
      * rewrite DA. apply rmap_Ok_Forall2 in H1.
        apply (Forall2_impl' _ _ _ _ (fun y l => proj1 (elt_len_iff y l)) H1).
  - intros [ls [H ->]]. inversion H as [b t|a m rest ls' SA B NE F]; subst; [reflexivity|].
    unfold size_and_shape. destruct (a_data a) as [|x d] eqn:DA; [contradiction|].
    rewrite (proj2 (rmap_Ok_Forall2 elt_len (x :: d) ls)).
    2:{ apply (Forall2_impl' _ _ _ _ (fun y l => proj2 (elt_len_iff y l)) F). }
    cbn [rbind]. rewrite SA.
    replace ((1 <? m)%nat && negb (Nat.eqb (prod rest) 1)) with false; [reflexivity|].
    symmetry. apply andb_false_iff. destruct B as [B|B].
    + left. apply Nat.ltb_ge. exact B.
    + right. rewrite B. reflexivity.
Qed.

Lemma strings_det v s ls s' ls' : strings v s ls -> strings v s' ls' -> s = s' /\ ls = ls'.
Proof.
  intros H H'. inversion H as [b t|a m rest ls0 SA B NE F]; subst; inversion H' as [|a' m' rest' ls1 SA' B' NE' F']; subst.
  - auto.
  - rewrite SA in SA'. split; [congruence|].
    revert F F'. clear. revert ls ls'. induction (a_data a) as [|x d IH]; intros ls ls' F F'.
    + inversion F; inversion F'; reflexivity.
    + inversion F as [|? ? ? ? X1 X2]; inversion F' as [|? ? ? ? Y1 Y2]; subst.
      f_equal; [|apply IH; assumption].
      destruct X1 as [s1 [A1 <-]], Y1 as [s2 [A2 <-]].
      destruct A1 as [->| ->], A2 as [A2|A2]; inversion A2; reflexivity.
Qed.

Lemma strings_ne v s ls : strings v s ls -> ls <> [].
Proof.
  intro H. destruct H as [b t|a m rest ls SA B NE F]; [discriminate|].
  destruct F; [contradiction|discriminate].
Qed.

Lemma max_list_spec ls : (forall l, In l ls -> l <= max_list ls) /\ (ls <> [] -> In (max_list ls) ls).
Proof.
  unfold max_list. induction ls as [|x ls [I1 I2]]; [split; [intros l []|contradiction]|].
  cbn [fold_left]. rewrite fold_max. cbn [Nat.max]. split.
  - intros l [<-|H]; [lia|]. specialize (I1 l H). lia.
  - intros _. destruct ls as [|y ls]; [left; cbn; lia|].
    destruct (Nat.max_spec x (fold_left Nat.max (y :: ls) 0)) as [[_ ->]|[_ ->]].
    + right. apply I2. discriminate.
    + left. reflexivity.
Qed.

Lemma has_char_In c s : has_char c s = true <-> In c (chars s).
Proof.
  induction s as [|d s IH]; cbn; [split; [discriminate|intros []]|].
  rewrite orb_true_iff, IH. split; intros [H|H]; auto.
  - apply Ascii.eqb_eq in H. auto.
  - left. apply Ascii.eqb_eq. auto.
Qed.

Lemma indexed_In i s j c : In (j, c) (indexed i s) <-> (i <= j /\ nth_error (chars s) (j - i) = Some c).
Proof.
  revert i. induction s as [|d s IH]; intro i; cbn [indexed chars list_ascii_of_string In].
  - split; [intros []|]. intros [_ H]. destruct (j - i); discriminate.
  - split.
    + intros [H|H].
      * inversion H; subst. rewrite Nat.sub_diag. split; [lia|reflexivity].
      * apply IH in H. destruct H as [H1 H2]. split; [lia|].
        replace (j - i) with (S (j - S i)) by lia. exact H2.
    + intros [H1 H2]. destruct (Nat.eq_dec i j) as [->|N].
      * rewrite Nat.sub_diag in H2. left. cbn in H2. congruence.
      * right. apply IH. split; [lia|]. replace (j - i) with (S (j - S i)) in H2 by lia. exact H2.
Qed.

Definition is_list (v : value) : bool := match v with VList _ => true | _ => false end.
Definition no_lists (o : sofa) : Prop := forall k v, dget k (pub o) = Some v -> is_list v = false.

Lemma np_array_shape v : is_list v = false -> exists a, np_array v = Ok a /\ a_shape a = shape_of v.
Proof. destruct v; cbn; intro H; try discriminate; eexists; split; reflexivity. Qed.

Lemma newaxis_axis v i : is_list v = false ->
  exists arr, nd_newaxis v 4 = Ok arr /\ nth_error (a_shape arr) i = axis v i.
Proof.
  intro H. destruct (np_array_shape v H) as [a [H1 H2]]. unfold nd_newaxis. rewrite H1. cbn [rbind].
  eexists. split; [reflexivity|]. cbn [reshape a_shape]. rewrite H2. reflexivity.
Qed.

Definition plain_state (p : ascii * option nat) : string * nat :=
  (str1 (fst p), match snd p with Some n => n | None => 0 end).

Lemma letters_found key v l : is_list v = false ->
  let st := map (fun ic => (upper_char (snd ic), axis v (fst ic)))
                (filter (fun ic : nat * ascii => is_lower_ascii (snd ic)) l) in
  (forall rs, rmap (letter_found key v) l = Ok rs ->
     List.concat (map fst rs) = map plain_state st
     /\ (forall c n, In (c, n) st -> n <> None)
     /\ (In "S"%char (map snd l) -> exists s ls, strings v s ls /\
           fold_left Nat.max (map snd rs) 0 = max_list ls)
     /\ (~ In "S"%char (map snd l) -> fold_left Nat.max (map snd rs) 0 = 0))
  /\ ((forall c n, In (c, n) st -> n <> None) ->
      (In "S"%char (map snd l) -> exists s ls, strings v s ls) ->
      exists rs, rmap (letter_found key v) l = Ok rs).
Proof.
  intros NL. cbv zeta. induction l as [|[i c] l [IH1 IH2]].
  { split; [|intros _ _; exists []; reflexivity]. intros rs H. cbn in H. inversion H; subst. cbn.
    repeat split; intros; tauto. }
  cbn [rmap filter map snd fst]. unfold letter_found at 1 3. cbn [fst snd].
  destruct (newaxis_axis v i NL) as [arr [N1 N2]]. rewrite N1. cbn [rbind]. rewrite N2.
  destruct (is_lower_ascii c) eqn:LC.
  - assert (NS : c <> "S"%char) by (intros ->; discriminate).
    cbn [map fst snd]. split.
    + intros rs H. destruct (axis v i) as [n|] eqn:AX; cbn [rbind] in H; [|discriminate].
      apply rbind_Ok in H. destruct H as [rs' [H1 H2]]. inversion H2; subst. clear H2.
      destruct (IH1 rs' H1) as [J1 [J2 [J3 J4]]]. cbn [map fst snd List.concat app fold_left].
      change (Nat.max 0 0) with 0.
      split; [rewrite J1; reflexivity|]. split.
      { intros c' n' [X|X]; [inversion X; discriminate|]. eapply J2. exact X. }
      split.
      { intros [X|X]; [congruence|]. apply J3. exact X. }
      intro X. apply J4. intro Y. apply X. right. exact Y.
    + intros H1 H2. destruct (axis v i) as [n|] eqn:AX.
      2:{ destruct (H1 (upper_char c) None (or_introl eq_refl)). reflexivity. }
      cbn [rbind]. destruct IH2 as [rs Hrs].
      { intros c' n' X. eapply H1. right. exact X. }
      { intro X. apply H2. right. exact X. }
      rewrite Hrs. cbn. eauto.
  - destruct (Ascii.eqb_spec c "S") as [->|NS].
    + cbn [map fst snd]. split.
      * intros rs H. apply rbind_Ok in H. destruct H as [r0 [H0 H]].
        apply rbind_Ok in H0. destruct H0 as [[n sh] [H0 H0']]. inversion H0'; subst. clear H0'.
        apply size_and_shape_iff in H0. destruct H0 as [ls [ST ->]].
        apply rbind_Ok in H. destruct H as [rs' [H1 H2]]. inversion H2; subst. clear H2.
        destruct (IH1 rs' H1) as [J1 [J2 [J3 J4]]]. cbn [map fst snd List.concat app fold_left].
        split; [exact J1|]. split; [exact J2|]. split.
        { intros _. exists sh, ls. split; [exact ST|]. cbn [Nat.max]. rewrite fold_max.
          destruct (in_dec Ascii.ascii_dec "S"%char (map snd l)) as [X|X].
          - destruct (J3 X) as [sh' [ls' [ST' ->]]]. destruct (strings_det _ _ _ _ _ ST ST') as [_ ->]. lia.
          - rewrite (J4 X). lia. }
        intro X. destruct X. left. reflexivity.
      * intros H1 H2. destruct (H2 (or_introl eq_refl)) as [sh [ls ST]].
        rewrite (proj2 (size_and_shape_iff v key (max_list ls) sh)) by eauto. cbn [rbind].
        destruct IH2 as [rs Hrs]; [exact H1|eauto|]. rewrite Hrs. cbn. eauto.
    + cbn [map fst snd]. split.
      * intros rs H. apply rbind_Ok in H. destruct H as [r0 [H0 H]]. inversion H0; subst. clear H0.
        apply rbind_Ok in H. destruct H as [rs' [H1 H2]]. inversion H2; subst. clear H2.
        destruct (IH1 rs' H1) as [J1 [J2 [J3 J4]]]. cbn [map fst snd List.concat app fold_left].
        change (Nat.max 0 0) with 0. split; [exact J1|]. split; [exact J2|]. split.
        { intros [X|X]; [congruence|]. apply J3. exact X. }
        intro X. apply J4. intro Y. apply X. right. exact Y.
      * intros H1 H2. cbn [rbind]. destruct IH2 as [rs Hrs]; [exact H1|intro X; apply H2; right; exact X|].
        rewrite Hrs. cbn. eauto.
Qed.

(** ** The sizes *)
Lemma dget_upd x n l : dget x (upd l []) = Some n <->
  exists l1 r, l = l1 ++ (x, n) :: r /\ ~ In x (map fst r).
Proof.
  assert (G : forall l a, dget x (upd l a) = Some n <->
    (exists l1 r, l = l1 ++ (x, n) :: r /\ ~ In x (map fst r))
    \/ (dget x a = Some n /\ ~ In x (map fst l))).
  { clear l. induction l as [|[y m] l IH]; intro a; cbn [upd fold_left].
    - change (fold_left _ [] a) with a. split; [auto|].
      intros [[l1 [r [H _]]]|[H _]]; [destruct l1; discriminate|exact H].
    - fold (upd l (dset (fst (y, m)) (snd (y, m)) a)). rewrite IH. cbn [fst snd map In].
      rewrite dget_dset. split.
      + intros [[l1 [r [-> H]]]|[H1 H2]].
        * left. exists ((y, m) :: l1), r. auto.
        * destruct (String.eqb_spec x y) as [->|N].
          -- left. exists [], l. inversion H1; subst. auto.
          -- right. split; [exact H1|]. intros [X|X]; [congruence|auto].
      + intros [[l1 [r [H1 H2]]]|[H1 H2]].
        * destruct l1 as [|z l1]; cbn in H1; inversion H1; subst.
          -- right. rewrite eqb_refl_s. auto.
          -- left. eauto.
        * right. destruct (String.eqb_spec x y) as [->|N]; [tauto|]. tauto. }
  rewrite G. cbn [dget]. split; [intros [H|[H _]]; [exact H|discriminate]|auto].
Qed.

Section Sizes.
Context (E : env) (cv : convention) (o o1 : sofa) (R : reset_to cv o o1)
  (DO : dicts_ok o) (NL : no_lists o).

Let RC := rt_conv _ _ _ R.
Let RP := rt_pub _ _ _ R.

Lemma filter_filter {A} (f g : A -> bool) l :
  filter f (filter g l) = filter (fun x => g x && f x) l.
Proof.
  induction l as [|x l IH]; [reflexivity|]. cbn. destruct (g x); cbn; [|exact IH].
  destruct (f x); [rewrite IH; reflexivity|exact IH].
Qed.
Lemma filter_map {A B} (f : B -> bool) (g : A -> B) l :
  filter f (map g l) = map g (filter (fun x => f (g x)) l).
Proof.
  induction l as [|x l IH]; [reflexivity|]. cbn. destruct (f (g x)); cbn; rewrite IH; reflexivity.
Qed.

Lemma dim_keys_eq : dim_keys o1 = variables cv o.
Proof.
  unfold dim_keys, variables. rewrite RP. f_equal.
  - apply filter_ext. intro k. rewrite RC. reflexivity.
  - rewrite (own_custom_eq cv o o1 R). destruct (custom o1) as [cu|]; [|reflexivity].
    rewrite filter_map, filter_filter. f_equal. apply filter_ext. intros [k e]. cbn [fst snd].
    apply andb_comm.
Qed.

Lemma own_custom_nodup : NoDup (dkeys (own_custom cv o)).
Proof.
  unfold own_custom. destruct DO as [_ ND]. destruct (custom o) as [cu|]; [|constructor].
  apply NoDup_filter_keys. exact ND.
Qed.

Lemma variables_declared k : In k (variables cv o) ->
  exists e d, declared cv o k = Some e /\ e_dims e = Some d.
Proof.
  unfold variables. rewrite in_app_iff. intros [H|H].
  - apply filter_In in H. destruct H as [_ H]. destruct (declared cv o k) as [e|]; [|discriminate].
    destruct (e_dims e) as [d|] eqn:D; [|discriminate]. exists e, d. auto.
  - apply filter_In in H. destruct H as [H _]. apply in_map_iff in H. destruct H as [[k' e] [HK H]].
    cbn in HK. subst k'. apply filter_In in H. cbn [snd] in H. destruct H as [H D].
    destruct (e_dims e) as [d|] eqn:ED; [|discriminate]. exists e, d. split; [|exact ED].
    unfold declared. assert (HC := H). unfold own_custom in H.
    destruct (custom o) as [cu|]; [|destruct H]. apply filter_In in H. destruct H as [_ H]. cbn [fst] in H.
    unfold dmem in H. destruct (dget k cv) as [e'|]; [discriminate|].
    apply In_dget; [exact own_custom_nodup|exact HC].
Qed.

Lemma map_snd_indexed i s : map snd (indexed i s) = chars s.
Proof. revert i. induction s as [|c s IH]; intro i; cbn; [reflexivity|]. f_equal. apply IH. Qed.

Lemma key_found_iff k : In k (variables cv o) ->
  (forall l m, key_found o1 k = Ok (l, m) ->
     contained o k /\ l = map plain_state (states cv o k)
     /\ (forall c n, In (c, n) (states cv o k) -> n <> None)
     /\ (string_variable cv o k -> exists v s ls, dget k (pub o) = Some v /\ strings v s ls /\ m = max_list ls)
     /\ (~ string_variable cv o k -> m = 0))
  /\ (contained o k -> (forall c n, In (c, n) (states cv o k) -> n <> None) ->
      (string_variable cv o k -> exists v s ls, dget k (pub o) = Some v /\ strings v s ls) ->
      exists l m, key_found o1 k = Ok (l, m)).
Proof.
  intro IV. destruct (variables_declared k IV) as [e [d [D ED]]].
  unfold key_found, getattr, dims_of, dgetE. rewrite RP, RC, D. cbn [rbind]. rewrite ED.
  unfold contained, states. rewrite D, ED.
  destruct (dget k (pub o)) as [v|] eqn:G.
  2:{ assert (NI : ~ In k (dkeys (pub o))) by (apply dget_None; exact G).
      destruct (smem k class_attrs); cbn [rbind];
        (split; [discriminate|intro X; contradiction]). }
  assert (I : In k (dkeys (pub o))) by (apply dget_Some_In; eauto). cbn [rbind].
  rewrite enum_indexed. change (first_alt d) with (main_alternative d).
  destruct (letters_found k v (indexed 0 (main_alternative d)) (NL k v G)) as [L1 L2].
  rewrite map_snd_indexed in L1, L2.
  assert (SV : string_variable cv o k <-> In "S"%char (chars (main_alternative d))).
  { rewrite <- has_char_In. split.
    - intros [_ [e' [d' [D' [ED' H]]]]]. rewrite D in D'. inversion D'; subst e'.
      rewrite ED in ED'. inversion ED'; subst d'. exact H.
    - intro H. split; [exact IV|]. exists e, d. auto. }
  split.
  - intros l m H. apply rbind_Ok in H. destruct H as [rs [H1 H2]]. inversion H2; subst. clear H2.
    destruct (L1 rs H1) as [J1 [J2 [J3 J4]]].
    split; [exact I|]. split; [exact J1|]. split; [exact J2|]. split.
    + intro X. destruct (J3 (proj1 SV X)) as [s [ls [X1 X2]]]. exists v, s, ls. auto.
    + intro X. apply J4. intro Y. apply X. apply SV. exact Y.
  - intros _ H1 H2. destruct (L2 H1) as [rs Hrs].
    + intro X. destruct (H2 (proj2 SV X)) as [v' [s [ls [X1 X2]]]]. inversion X1; subst v'. eauto.
    + rewrite Hrs. cbn [rbind]. eauto.
Qed.

Lemma str1_inj a b : str1 a = str1 b -> a = b.
Proof. intro H. inversion H. reflexivity. Qed.

Lemma map_plain_fst l : map fst (map plain_state l) = map str1 (map fst l).
Proof. rewrite !map_map. reflexivity. Qed.

Lemma found_concat ks : (forall k, In k ks -> In k (variables cv o)) ->
  forall rs, Forall2 (fun k r => key_found o1 k = Ok r) ks rs ->
  List.concat (map fst rs) = map plain_state (flat_map (states cv o) ks)
  /\ (forall k, In k ks -> contained o k)
  /\ (forall c n, In (c, n) (flat_map (states cv o) ks) -> n <> None)
  /\ (forall k, In k ks -> string_variable cv o k ->
        exists v s ls, dget k (pub o) = Some v /\ strings v s ls
          /\ max_list ls <= fold_left Nat.max (map snd rs) 0)
  /\ (fold_left Nat.max (map snd rs) 0 = 0 \/
      exists k v s ls, In k ks /\ string_variable cv o k /\ dget k (pub o) = Some v
        /\ strings v s ls /\ max_list ls = fold_left Nat.max (map snd rs) 0).
Proof.
  intros HK rs F. induction F as [|k [l m] ks rs KF F IH].
  { cbn. repeat split; auto; try (intros; contradiction). }
  destruct IH as [I1 [I2 [I3 [I4 I5]]]]; [intros; apply HK; right; assumption|].
  assert (IV := HK k (or_introl eq_refl)).
  destruct (proj1 (key_found_iff k IV) l m KF) as [K1 [K2 [K3 [K4 K5]]]].
  cbn [map fst snd List.concat flat_map fold_left]. cbn [Nat.max]. rewrite fold_max.
  split; [rewrite map_app, I1, K2; reflexivity|].
  split; [intros j [<-|J]; auto|].
  split.
  { intros c n X. apply in_app_iff in X. destruct X as [X|X]; [eapply K3|eapply I3]; exact X. }
  split.
  { intros j [<-|J] SJ.
    - destruct (K4 SJ) as [v [s [ls [A1 [A2 A3]]]]]. exists v, s, ls. split; [exact A1|]. split; [exact A2|]. lia.
    - destruct (I4 j J SJ) as [v [s [ls [A1 [A2 A3]]]]]. exists v, s, ls. split; [exact A1|]. split; [exact A2|]. lia. }
  destruct (Nat.max_spec m (fold_left Nat.max (map snd rs) 0)) as [[_ ->]|[LE ->]].
  - destruct I5 as [I5|[j [v [s [ls [A1 [A2 A3]]]]]]]; [left; exact I5|].
    right. exists j, v, s, ls. split; [right; exact A1|]. tauto.
  - destruct m as [|m]; [left; reflexivity|]. right.
    assert (DS : string_variable cv o k).
    { destruct (variables_declared k IV) as [e [d [D ED]]].
      destruct (has_char "S" (main_alternative d)) eqn:HS.
      - split; [exact IV|]. exists e, d. auto.
      - exfalso. assert (X : S m = 0); [|discriminate]. apply K5. intros [_ [e' [d' [D' [ED' H]]]]].
        rewrite D in D'. inversion D'; subst e'. rewrite ED in ED'. inversion ED'; subst d'. congruence. }
    destruct (K4 DS) as [v [s [ls [A1 [A2 A3]]]]]. exists k, v, s, ls.
    split; [left; reflexivity|]. auto.
Qed.

Lemma sized_iff : (exists s, detect o1 = (s, Ok tt)) <-> sized cv o.
Proof.
  destruct (detect_map o1) as [D1 D2]. rewrite dim_keys_eq in D1, D2. split.
  - intros [s H]. destruct (rmap (key_found o1) (variables cv o)) as [rs|e] eqn:RM.
    2:{ rewrite H in D2. specialize (D2 e eq_refl). discriminate. }
    apply rmap_Ok_Forall2 in RM. destruct (found_concat _ (fun k h => h) rs RM) as [_ [I2 [I3 [I4 _]]]].
    split; [exact I2|]. split; [exact I3|]. intros k SV.
    destruct (I4 k (proj1 SV) SV) as [v [s' [ls [A1 [A2 _]]]]]. eauto.
  - intros [S1 [S2 S3]].
    assert (X : exists rs, rmap (key_found o1) (variables cv o) = Ok rs).
    { assert (G : forall k, In k (variables cv o) -> exists r, key_found o1 k = Ok r).
      { intros k IV. destruct (proj2 (key_found_iff k IV)) as [l [m H]]; eauto.
        intros c n H. apply (S2 c n). unfold all_states. apply in_flat_map. eauto. }
      revert G. clear. induction (variables cv o) as [|k ks IH]; intro G; [exists []; reflexivity|].
      destruct (G k (or_introl eq_refl)) as [r Hr]. destruct IH as [rs Hrs]; [intros; apply G; right; assumption|].
      cbn. rewrite Hr, Hrs. cbn. eauto. }
    destruct X as [rs RM]. rewrite (D1 rs RM). eauto.
Qed.


Lemma sizes_iff s : detect o1 = (s, Ok tt) ->
  forall x n, dget x (fixed_sizes s) = Some n <-> size cv o x n.
Proof.
  intros HD x n. destruct (detect_map o1) as [D1 D2]. rewrite dim_keys_eq in D1, D2.
  destruct (rmap (key_found o1) (variables cv o)) as [rs|e] eqn:RM.
  2:{ rewrite HD in D2. specialize (D2 e eq_refl). discriminate. }
  specialize (D1 rs eq_refl). rewrite HD in D1. inversion D1; subst s. clear D1 D2.
  apply rmap_Ok_Forall2 in RM. destruct (found_concat _ (fun k h => h) rs RM) as [I1 [I2 [I3 [I4 I5]]]].
  unfold fixed_sizes. cbn [fst snd]. rewrite !dget_dset.
  set (S_ := fold_left Nat.max (map snd rs) 0) in *.
  assert (LS : longest cv o S_).
  { split.
    - intros k v s ls l SV G ST IL. destruct (I4 k (proj1 SV) SV) as [v' [s' [ls' [A1 [A2 A3]]]]].
      rewrite G in A1. inversion A1; subst v'. destruct (strings_det _ _ _ _ _ ST A2) as [_ ->].
      assert (Y := proj1 (max_list_spec ls') l IL). lia.
    - destruct I5 as [I5|[k [v [s [ls [A1 [A2 [A3 [A4 A5]]]]]]]]]; [left; exact I5|].
      right. exists k, v, s, ls. do 3 (split; [assumption|]). rewrite <- A5.
      apply max_list_spec. eapply strings_ne. exact A4. }
  assert (LU : forall m, longest cv o m -> m = S_).
  { intros m [L1 L2]. destruct LS as [M1 M2]. apply Nat.le_antisymm.
    - destruct L2 as [->|[k [v [s [ls [A1 [A2 [A3 A4]]]]]]]]; [lia|]. eapply M1; eassumption.
    - destruct M2 as [->|[k [v [s [ls [A1 [A2 [A3 A4]]]]]]]]; [lia|]. eapply L1; eassumption. }
  destruct (String.eqb_spec x "S") as [->|NS].
  { split.
    - intro H. inversion H; subst. right; right; left. auto.
    - intros [[C _]|[[C _]|[[_ L]|[c [l [r [C [H _]]]]]]]]; try discriminate.
      + rewrite (LU n L). reflexivity.
      + inversion C; subst c. discriminate. }
  destruct (String.eqb_spec x "I") as [->|NI].
  { split.
    - intro H. inversion H; subst. right; left. auto.
    - intros [[C _]|[[_ ->]|[[C L]|[c [l [r [C [H _]]]]]]]]; try discriminate; [reflexivity|].
      inversion C; subst c. discriminate. }
  destruct (String.eqb_spec x "C") as [->|NC].
  { split.
    - intro H. inversion H; subst. left. auto.
    - intros [[_ ->]|[[C _]|[[C L]|[c [l [r [C [H _]]]]]]]]; try discriminate; [reflexivity|].
      inversion C; subst c. discriminate. }
  rewrite dget_upd, I1. split.
  - intros [l1 [r [H1 H2]]]. right; right; right.
    assert (EX : exists c, x = str1 c /\ exists p q on, all_states cv o = p ++ (c, on) :: q
        /\ plain_state (c, on) = (x, n) /\ r = map plain_state q).
    { apply map_eq_app in H1. destruct H1 as [p [q' [Q1 [Q2 Q3]]]].
      destruct q' as [|[c on] q]; [discriminate|]. cbn [map] in Q3. inversion Q3 as [[Q4 Q5 Q6]].
      exists c. split; [reflexivity|]. exists p, q, on. unfold all_states. rewrite Q1. auto. }
    destruct EX as [c [-> [p [q [on [X1 [X2 ->]]]]]]]. exists c, p, q.
    split; [reflexivity|]. split.
    { cbn. destruct (Ascii.eqb_spec c "C") as [->|]; [destruct NC; reflexivity|].
      destruct (Ascii.eqb_spec c "I") as [->|]; [destruct NI; reflexivity|].
      destruct (Ascii.eqb_spec c "S") as [->|]; [destruct NS; reflexivity|]. reflexivity. }
    assert (ON : on = Some n).
    { destruct on as [m|]; [unfold plain_state in X2; cbn in X2; congruence|].
      exfalso. apply (I3 c None); [|reflexivity]. fold (all_states cv o). rewrite X1.
      apply in_app_iff. right. left. reflexivity. }
    subst on. split; [exact X1|]. intro Y. apply H2. rewrite map_plain_fst. apply in_map. exact Y.
  - intros [[C _]|[[C _]|[[C L]|[c [l [r [-> [H [H1 H2]]]]]]]]]; try congruence.
    fold (all_states cv o). rewrite H1. exists (map plain_state l), (map plain_state r).
    split; [rewrite map_app; reflexivity|]. rewrite map_plain_fst. intro Y. apply in_map_iff in Y.
    destruct Y as [c' [Y1 Y2]]. apply str1_inj in Y1. subst c'. exact (H2 Y2).
Qed.
End Sizes.

(** ** Shapes *)
Lemma shape_eqb_eq a b : shape_eqb a b = true <-> a = b.
Proof.
  revert b. induction a as [|x a IH]; intros [|y b]; cbn; try (split; [discriminate|discriminate]).
  - tauto.
  - rewrite andb_true_iff, Nat.eqb_eq, IH. split; [intros [-> ->]; reflexivity|].
    intro H. inversion H. auto.
Qed.

Lemma shape_fit_length act n : List.length (shape_fit act n) = n.
Proof.
  unfold shape_fit. rewrite app_length, repeat_length, firstn_length. lia.
Qed.

Lemma nth_repeat1 i n : nth i (repeat 1 n) 1 = 1.
Proof. revert i. induction n; intros [|i]; cbn; auto. Qed.

Lemma shape_fit_nth act n i : i < n -> nth_error (shape_fit act n) i = Some (nth i act 1).
Proof.
  intro H. rewrite (nth_error_nth' _ 1) by (rewrite shape_fit_length; exact H). f_equal.
  unfold shape_fit. destruct (Nat.lt_ge_cases i (List.length act)) as [L|G].
  - rewrite app_nth1 by (rewrite firstn_length; lia).
    revert act n H L. induction i as [|i IH]; intros [|x act] [|n] H L; cbn in *; try lia; try reflexivity.
    apply IH; lia.
  - rewrite app_nth2 by (rewrite firstn_length; lia). rewrite nth_repeat1.
    symmetry. apply nth_overflow. lia.
Qed.

Lemma Forall2_nth {A B} (P : A -> B -> Prop) l r :
  Forall2 P l r <-> List.length l = List.length r
    /\ forall i x y, nth_error l i = Some x -> nth_error r i = Some y -> P x y.
Proof.
  split.
  - intro F. induction F as [|x y l r H F [I1 I2]]; [split; [reflexivity|intros [|i]; discriminate]|].
    split; [cbn; congruence|]. intros [|i] a b; cbn; [congruence|]. apply I2.
  - revert r. induction l as [|x l IH]; intros [|y r] [H1 H2]; cbn in H1; try discriminate; constructor.
    + apply (H2 0); reflexivity.
    + apply IH. split; [congruence|]. intros i a b H3 H4. apply (H2 (S i)); assumption.
Qed.

Section Shapes.
Context (E : env) (cv : convention) (o o1 : sofa) (R : reset_to cv o o1)
  (DO : dicts_ok o) (NL : no_lists o) (s : dacc) (HD : detect o1 = (s, Ok tt)).

Let RC := rt_conv _ _ _ R.
Let RP := rt_pub _ _ _ R.
Let a := fixed_sizes s.
Let SZ : forall x n, dget x a = Some n <-> size cv o x n := sizes_iff cv o o1 R DO NL s HD.

Lemma size_unique x n n' : size cv o x n -> size cv o x n' -> n = n'.
Proof. rewrite <- !SZ. congruence. Qed.

Lemma extent_iff x n :
  (if Ascii.eqb x "S" then Ok 1 else dgetE (str1 (upper_char x)) a) = Ok n <-> extent cv o x n.
Proof.
  unfold extent. destruct (Ascii.eqb x "S").
  - split; [intro H; inversion H; reflexivity|intros ->; reflexivity].
  - rewrite <- SZ. unfold dgetE. destruct (dget (str1 (upper_char x)) a); [|split; discriminate].
    split; intro H; inversion H; reflexivity.
Qed.

Lemma shape_ref_iff alt r : shape_ref a alt = Ok r <-> Forall2 (extent cv o) (chars alt) r.
Proof.
  unfold shape_ref. rewrite rmap_Ok_Forall2.
  split; intro H; refine (Forall2_impl' _ _ _ _ _ H); intros x n; apply extent_iff.
Qed.

Lemma letters_iff alt : (exists r, shape_ref a alt = Ok r) <-> letters_known cv o alt.
Proof.
  unfold letters_known. split.
  - intros [r H] x I. apply shape_ref_iff in H. apply has_char_In in I.
    revert I. induction H as [|y n l r P F IH]; intros []; [subst; eauto|auto].
  - intro H. assert (G : forall l, (forall x, In x l -> exists n, extent cv o x n) ->
        exists r, Forall2 (extent cv o) l r).
    { induction l as [|x l IH]; intro K; [exists []; constructor|].
      destruct (K x (or_introl eq_refl)) as [n Hn].
      destruct IH as [r Hr]; [intros; apply K; right; assumption|]. exists (n :: r). constructor; assumption. }
    destruct (G (chars alt)) as [r Hr]; [intros x I; apply H; apply has_char_In; exact I|].
    exists r. apply shape_ref_iff. exact Hr.
Qed.

Lemma fits_iff act alt :
  (exists r, shape_ref a alt = Ok r /\ shape_eqb (shape_fit act (List.length r)) r = true)
  <-> fits cv o act alt.
Proof.
  unfold fits. split.
  - intros [r [H1 H2]] i x H. apply shape_ref_iff in H1. apply shape_eqb_eq in H2.
    apply Forall2_nth in H1. destruct H1 as [L1 L2]. apply (L2 i); [exact H|].
    rewrite <- H2. apply shape_fit_nth. rewrite <- L1. apply nth_error_Some. congruence.
  - intro H. exists (shape_fit act (List.length (chars alt))).
    rewrite shape_fit_length. split; [|apply shape_eqb_eq; reflexivity].
    apply shape_ref_iff. apply Forall2_nth. rewrite shape_fit_length. split; [reflexivity|].
    intros i x n H1 H2. assert (L : i < List.length (chars alt)) by (apply nth_error_Some; congruence).
    rewrite shape_fit_nth in H2 by exact L. inversion H2; subst. apply H. exact H1.
Qed.

(** the alternative that is found *)
Definition found_alt (act : list nat) (alts : list string) (dm : string) : Prop :=
  exists pre alt post, alts = pre ++ alt :: post /\ (forall b, In b pre -> letters_known cv o b)
    /\ fits cv o act alt /\ dm = upper alt.

Lemma match_alt_found act alts dm : match_alt a act alts = Ok (Some dm) -> found_alt act alts dm.
Proof.
  induction alts as [|d alts IH]; cbn [match_alt]; [discriminate|].
  intro H. apply rbind_Ok in H. destruct H as [r [H1 H2]].
  destruct (shape_eqb (shape_fit act (List.length r)) r) eqn:Q.
  - inversion H2; subst. exists [], d, alts. split; [reflexivity|]. split; [intros b []|].
    split; [|reflexivity]. apply fits_iff. eauto.
  - destruct (IH H2) as [pre [alt [post [-> [P1 [P2 P3]]]]]]. exists (d :: pre), alt, post.
    split; [reflexivity|]. split; [|auto]. intros b [<-|I]; [|auto]. apply letters_iff. eauto.
Qed.

Lemma match_alt_iff act alts :
  (exists dm, match_alt a act alts = Ok (Some dm)) <->
  exists pre alt post, alts = pre ++ alt :: post /\ (forall b, In b pre -> letters_known cv o b)
    /\ fits cv o act alt.
Proof.
  split.
  - intros [dm H]. apply match_alt_found in H. destruct H as [pre [alt [post [-> [P1 [P2 P3]]]]]]. eauto 6.
  - intros [pre [alt [post [-> [P1 P2]]]]]. induction pre as [|d pre IH]; cbn [app match_alt].
    + apply fits_iff in P2. destruct P2 as [r [H1 H2]]. rewrite H1. cbn [rbind]. rewrite H2. eauto.
    + destruct (proj2 (letters_iff d) (P1 d (or_introl eq_refl))) as [r Hr]. rewrite Hr. cbn [rbind].
      destruct (shape_eqb _ r); [eauto|]. apply IH. intros b I. apply P1. right. exact I.
Qed.

Lemma atleast4 sh : sh_atleast_nd sh 4 = shape4 sh.
Proof.
  destruct sh as [|a0 [|b [|c [|d sh]]]]; try reflexivity.
  unfold sh_atleast_nd, pad1. cbn. rewrite app_nil_r. reflexivity.
Qed.

Lemma shape_act_iff k e d v act :
  declared cv o k = Some e -> e_dims e = Some d -> dget k (pub o) = Some v ->
  (shape_act o1 k = Ok act <-> compared_shape (e_type e) d v act).
Proof.
  intros D ED G. unfold shape_act, dims_of, dgetE, getattr. rewrite RC, RP, D, G. cbn [rbind].
  rewrite ED. cbn [rbind]. assert (NV := NL k v G).
  destruct (np_array_shape v NV) as [w [W1 W2]].
  assert (TY : smem (e_type e) ["attribute"; "string"] = true <-> (e_type e = "attribute" \/ e_type e = "string")).
  { rewrite smem_In. cbn. intuition congruence. }
  destruct (smem (e_type e) ["attribute"; "string"]) eqn:T.
  - destruct (proj1 TY eq_refl) as [T'|T'].
    + split.
      * intro H. apply rbind_Ok in H. destruct H as [[n sh] [H1 H2]]. inversion H2; subst.
        apply size_and_shape_iff in H1. destruct H1 as [ls [H1 _]]. eapply cs_string; [auto|exact H1].
      * intro H. inversion H as [sh ls C ST| |]; subst; try congruence.
        rewrite (proj2 (size_and_shape_iff v k (max_list ls) act)) by eauto. reflexivity.
    + split.
      * intro H. apply rbind_Ok in H. destruct H as [[n sh] [H1 H2]]. inversion H2; subst.
        apply size_and_shape_iff in H1. destruct H1 as [ls [H1 _]]. eapply cs_string; [auto|exact H1].
      * intro H. inversion H as [sh ls C ST| |]; subst; try congruence.
        rewrite (proj2 (size_and_shape_iff v k (max_list ls) act)) by eauto. reflexivity.
  - assert (N : e_type e <> "attribute" /\ e_type e <> "string").
    { split; intro C; assert (X : false = true) by (apply TY; auto); discriminate. }
    destruct N as [N1 N2].
    unfold atleast_nd. rewrite W1. cbn [rbind]. unfold a_size. cbn [reshape a_shape]. rewrite W2, atleast4.
    destruct (Nat.ltb_spec 1 (String.length (hd "" (split "," d)))) as [L|L].
    + split.
      * intro H. inversion H; subst. apply cs_multi; assumption.
      * intro H. inversion H as [sh ls [C|C] ST| |]; subst; try congruence. lia.
    + split.
      * intro H. inversion H; subst. apply cs_single; assumption.
      * intro H. inversion H as [sh ls [C|C] ST| |]; subst; try congruence. lia.
Qed.

Lemma check_shape_cases k : In k (variables cv o) ->
  forall r, check_shape o1 a k = Ok r -> 
  (exists dm, r = (Some dm, "")) \/ (exists m, m <> "" /\ r = (None, m)).
Proof.
  intros _ r H. unfold check_shape in H.
  apply rbind_Ok in H. destruct H as [act [_ H]]. apply rbind_Ok in H. destruct H as [d [_ H]].
  apply rbind_Ok in H. destruct H as [[dm|] [_ H]]; [left; inversion H; eauto|].
  apply rbind_Ok in H. destruct H as [vb [_ H]]. inversion H. right. eexists. split; [|reflexivity].
  discriminate.
Qed.

Lemma check_shape_ok k : In k (variables cv o) ->
  (exists dm, check_shape o1 a k = Ok (Some dm, "")) <-> shape_ok cv o k.
Proof.
  intro IV. unfold shape_ok. split.
  - intros [dm H]. unfold check_shape in H.
    apply rbind_Ok in H. destruct H as [act [H1 H]]. apply rbind_Ok in H. destruct H as [d [H2 H]].
    apply rbind_Ok in H. destruct H as [m [H3 H]].
    destruct m as [dm'|]; [|apply rbind_Ok in H; destruct H as [vb [_ H]]; discriminate].
    assert (M : exists dm, match_alt a act (split ", " d) = Ok (Some dm)) by eauto.
    apply match_alt_iff in M. destruct M as [pre [alt [post [M1 [M2 M3]]]]].
    unfold dims_of, dgetE in H2. rewrite RC in H2.
    destruct (declared cv o k) as [e|] eqn:D; [|discriminate]. cbn [rbind] in H2.
    destruct (e_dims e) as [d'|] eqn:ED; [|discriminate]. inversion H2; subst d'.
    destruct (dget k (pub o)) as [v|] eqn:G.
    + exists e, d, v, act, pre, alt, post. split; [exact eq_refl|]. split; [exact ED|].
      split; [reflexivity|]. split; [|auto]. apply (shape_act_iff k e d v act D ED G). exact H1.
    + exfalso. unfold shape_act, getattr, dims_of, dgetE in H1. rewrite RC, RP, G, D in H1. cbn [rbind] in H1.
      rewrite ED in H1. cbn [rbind] in H1. destruct (smem k class_attrs); discriminate.
  - intros [e [d [v [act [pre [alt [post [D [ED [G [CS [AL [KN F]]]]]]]]]]]]].
    unfold check_shape. rewrite (proj2 (shape_act_iff k e d v act D ED G) CS). cbn [rbind].
    unfold dims_of, dgetE. rewrite RC, D. cbn [rbind]. rewrite ED. cbn [rbind].
    destruct (proj2 (match_alt_iff act (split ", " d))) as [dm M]; [eauto 6|]. rewrite M. cbn [rbind]. eauto.
Qed.

Lemma check_shapes_spec ks : (forall k, In k ks -> In k (variables cv o)) -> forall d err d' r,
  check_shapes o1 a ks d err = (d', Ok r) ->
  (r = err <-> forall k, In k ks -> exists dm, check_shape o1 a k = Ok (Some dm, ""))
  /\ (exists m, r = err +++ m)
  /\ (r = err -> forall k dm, (In k ks -> check_shape o1 a k = Ok (Some dm, "") -> dget k d' = Some dm)
               /\ (~ In k ks -> dget k d' = dget k d)).
Proof.
  induction ks as [|k ks IH]; intros HK d err d' r H; cbn [check_shapes] in H.
  - inversion H; subst. split; [split; [intros _ k []|auto]|].
    split; [exists ""; rewrite sapp_nil_r; reflexivity|]. intros _ k dm. split; [intros []|auto].
  - assert (IV := HK k (or_introl eq_refl)).
    assert (HK' : forall j, In j ks -> In j (variables cv o)) by (intros; apply HK; right; assumption).
    destruct (check_shape o1 a k) as [[[dm|] m]|e] eqn:CS; [| |discriminate].
    + destruct (check_shape_cases k IV _ CS) as [[dm' Q]|[m' [_ Q]]]; inversion Q; subst dm' m.
      destruct (IH HK' _ _ _ _ H) as [I1 [I2 I3]]. split; [|split; [exact I2|]].
      * rewrite I1. split; [intros X j [<-|J]; [eauto|auto]|]. intros X j J. apply X. right. exact J.
      * intros RE j dm'. specialize (I3 RE j dm'). destruct I3 as [I3 I4]. split.
        -- intros [<-|J] CJ; [|auto]. rewrite CS in CJ. inversion CJ; subst dm'.
           destruct (in_dec string_dec k ks) as [IN|NI]; [auto|].
           rewrite I4 by exact NI. apply dget_dset_same.
        -- intro NI. rewrite I4 by (intro X; apply NI; right; exact X).
           apply dget_dset_other. intro X. apply NI. left. auto.
    + destruct (check_shape_cases k IV _ CS) as [[dm' Q]|[m' [NE Q]]]; inversion Q; subst m'.
      destruct (IH HK' _ _ _ _ H) as [I1 [I2 I3]]. destruct I2 as [m2 ->].
      assert (NQ : (err +++ m) +++ m2 <> err).
      { rewrite sapp_assoc. intro X. rewrite <- (sapp_nil_r err) in X at 2. apply sapp_inv_head in X.
        apply sapp_eq_nil in X. tauto. }
      split; [split; [intro X; contradiction|]|].
      * intro X. destruct (X k (or_introl eq_refl)) as [dm Y]. congruence.
      * split; [exists (m +++ m2); apply sapp_assoc|]. intro X. contradiction.
Qed.

Lemma shapes_iff :
  (exists d, dims_pure o1 = (a, d, Ok "")) <-> (forall k, In k (variables cv o) -> shape_ok cv o k).
Proof.
  unfold dims_pure. rewrite HD. fold a. rewrite (dim_keys_eq cv o o1 R).
  destruct (check_shapes o1 a (variables cv o) [] "") as [d [r|e]] eqn:CS.
  - destruct (check_shapes_spec _ (fun k h => h) _ _ _ _ CS) as [I1 _]. split.
    + intros [d' H] k IV. inversion H; subst. apply (check_shape_ok k IV). apply I1; [reflexivity|exact IV].
    + intro H. exists d. f_equal. f_equal. apply I1. intros k IV. apply (check_shape_ok k IV). auto.
  - split; [intros [d' H]; discriminate|]. intro H. exfalso.
    assert (G : forall ks d0 err, (forall k, In k ks -> In k (variables cv o)) ->
       exists d1, check_shapes o1 a ks d0 err = (d1, Ok err)).
    { induction ks as [|k ks IH]; intros d0 err HK; [exists d0; reflexivity|]. cbn [check_shapes].
      destruct (proj2 (check_shape_ok k (HK k (or_introl eq_refl)))) as [dm Q]; [apply H; apply HK; left; reflexivity|].
      rewrite Q. apply IH. intros; apply HK; right; assumption. }
    destruct (G (variables cv o) [] "" (fun k h => h)) as [d1 Q]. congruence.
Qed.
End Shapes.
