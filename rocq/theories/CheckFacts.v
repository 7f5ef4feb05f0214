(** Decision procedures for the hypotheses of the theorems about writing and
    reading, used in the examples. *)
From Verif Require Import Base PyStr PyNum NdArray Sofa Verify Utils Io
  SpecAttr SpecInit SpecVerify SpecEquals SpecIo SpecStore
  BaseFacts StrFacts WriteFacts UpgradeFacts MissingFacts EqualsFacts IoFacts RoundFacts SameFacts DemoFacts.
From Coq Require Import ZArith Lia.
Open Scope string_scope.
Open Scope list_scope.
Open Scope nat_scope.

Definition vars (cv : convention) (o : sofa) : list (string * entry * value) :=
  flat_map (fun kv => match declared cv o (fst kv) with
                      | Some e => if String.eqb (e_type e) "attribute" then [] else [(fst kv, e, snd kv)]
                      | None => []
                      end) (pub o).
Lemma vars_in cv o k e v : is_variable cv o k e v -> In (k, e, v) (vars cv o).
Proof.
  intros [D [T G]]. apply in_flat_map. exists (k, v). split; [apply dget_In; exact G|]. cbn [fst snd]. rewrite D.
  rewrite (eqb_neq_s _ _ T). left. reflexivity.
Qed.
Lemma all_vars {cv o} (P : string -> entry -> value -> bool) : forallb (fun x => P (fst (fst x)) (snd (fst x)) (snd x)) (vars cv o) = true ->
  forall k e v, is_variable cv o k e v -> P k e v = true.
Proof. intros H k e v IV. rewrite forallb_forall in H. apply (H (k, e, v)). apply vars_in. exact IV. Qed.

Definition is_attrb (cv : convention) (o : sofa) (k : string) : bool :=
  match declared cv o k with Some e => String.eqb (e_type e) "attribute" | None => false end.
Lemma is_attrb_ok cv o k : contained o k -> is_attrb cv o k = true -> is_attribute cv o k.
Proof.
  intros C H. split; [exact C|]. unfold is_attrb in H. destruct (declared cv o k) as [e|]; [|discriminate].
  exists e. split; [reflexivity|apply String.eqb_eq; exact H].
Qed.
Lemma is_attrb_of cv o k : is_attribute cv o k -> is_attrb cv o k = true.
Proof. intros [_ [e [D T]]]. unfold is_attrb. rewrite D, T. reflexivity. Qed.

Lemma all_keys o (P : string -> bool) : forallb P (dkeys (pub o)) = true -> forall k, contained o k -> P k = true.
Proof. rewrite forallb_forall. intros H k C. apply H. exact C. Qed.

(** ** Storable *)
Definition regularb (v : value) : bool :=
  match v with
  | VStr _ _ => true
  | VScal x => negb (dkind_eqb (elt_kind x) KU)
  | VArr a => wf_arr a && negb (a_mask a) && forallb (fun x => dkind_eqb (elt_kind x) (a_kind a)) (a_data a)
  | VList _ => false
  end.
Lemma regularb_ok o : forallb (fun kv => regularb (snd kv)) (pub o) = true -> regular o.
Proof.
  intros H k v G. apply dget_In in G. rewrite forallb_forall in H. specialize (H _ G). cbn [snd] in H.
  assert (K : forall a b, dkind_eqb a b = true -> a = b) by (intros [] []; cbn; congruence).
  destruct v as [b s|x|a|l]; cbn in *; [exact I| | |discriminate].
  - intro X. rewrite X in H. discriminate.
  - apply andb_true_iff in H. destruct H as [H H3]. apply andb_true_iff in H. destruct H as [H1 H2].
    rewrite forallb_forall in H3. split; [exact H1|]. split; [destruct (a_mask a); [discriminate|reflexivity]|].
    intros x X. apply K, H3, X.
Qed.

Definition legalb (members : list string) (n : string) : bool :=
  negb (smem n members) && negb (smem n special_attrs) && negb (endswith "__" n) && name_valid n.
Lemma legalb_ok m n : legalb m n = true -> legal_attr m n.
Proof.
  unfold legalb. rewrite !andb_true_iff, !negb_true_iff. intros [[[H1 H2] H3] H4].
  split; [apply smem_false; exact H1|]. split; [apply smem_false; exact H2|]. split; [|exact H4].
  intros r ->. assert (X : endswith "__" (r +++ "__") = true) by (apply endswith_iff; eauto). congruence.
Qed.

Definition dims_tidyb (dtype d : string) : bool :=
  forallb (fun alt => negb (String.eqb alt "") && (String.length alt =? String.length (hd "" (split "," d)))
      && negb (has_char "s" alt)
      && (if String.eqb dtype "double" then negb (has_char "S" alt) else true)
      && (if String.eqb dtype "string" then endswith "S" alt && negb (has_char "S" (drop_end 1 alt)) else true))
    (alternatives d).
Lemma dims_tidyb_ok t d : dims_tidyb t d = true -> dims_tidy t d.
Proof.
  unfold dims_tidyb. rewrite forallb_forall. intros H alt I. specialize (H alt I). rewrite !andb_true_iff, !negb_true_iff in H.
  destruct H as [[[[H1 H2] H3] H4] H5]. split; [apply String.eqb_neq; exact H1|]. split; [apply Nat.eqb_eq; exact H2|].
  split; [exact H3|]. split.
  - intros ->. cbn [String.eqb Ascii.eqb Bool.eqb] in H4. apply negb_true_iff in H4. exact H4.
  - intros ->. cbn [String.eqb Ascii.eqb Bool.eqb] in H5. apply andb_true_iff in H5. destruct H5 as [H5 H6].
    apply endswith_iff in H5. destruct H5 as [b ->]. exists b. split; [reflexivity|].
    change 1 with (String.length "S") in H6. rewrite (drop_end_app b "S") in H6. apply negb_true_iff in H6. exact H6.
Qed.

Definition axes_fitb (dtype : string) (n : nat) (s : list nat) : bool :=
  forallb (fun m => m =? 1) (skipn n s) || (String.eqb dtype "double" && (n =? 1) && (List.length (sh_squeeze s) <=? 1)).
Lemma axes_fitb_ok t n s : axes_fitb t n s = true -> axes_fit t n s.
Proof.
  unfold axes_fitb. rewrite orb_true_iff, forallb_forall, !andb_true_iff. intros [H|[[H1 H2] H3]].
  - left. intros m I. apply Nat.eqb_eq. auto.
  - right. split; [apply String.eqb_eq; exact H1|]. split; [apply Nat.eqb_eq; exact H2|apply Nat.leb_le; exact H3].
Qed.

Definition ascii_textb (s : string) : bool := forallb (fun c => nat_of_ascii c <? 128) (chars s).
Lemma ascii_textb_ok s : ascii_textb s = true -> ascii_text s.
Proof. unfold ascii_textb, ascii_text. rewrite forallb_forall, Forall_forall. intros H c I. apply Nat.ltb_lt. auto. Qed.
Definition elt_ascii (x : elt) : bool := match x with EStr s => ascii_textb s | _ => true end.
Lemma ascii_valueb_ok v : forallb elt_ascii (elements v) = true -> ascii_value v.
Proof.
  rewrite forallb_forall. destruct v as [b s|x|a|l]; cbn [elements ascii_value]; intro H; auto.
  - apply ascii_textb_ok. apply (H (EStr s)). left. reflexivity.
  - intros s I. apply ascii_textb_ok. apply (H _ I).
Qed.

Definition storable_varb (k : string) (e : entry) (v : value) : bool :=
  negb (has_char "." k) && name_valid (netcdf_name k)
  && match e_dims e with
     | Some d => dims_tidyb (e_type e) d && axes_fitb (e_type e) (String.length (main_alternative d)) (shape_of v)
     | None => false
     end
  && negb (prod (shape_of v) =? 0) && forallb elt_ascii (elements v).
Definition soundb (v : value) : bool :=
  match v with
  | VArr a => wf_arr a && (if a_mask a
      then dkind_eqb (a_kind a) KF && existsb (fun x => match x with EObj => true | _ => false end) (a_data a)
           && forallb (fun x => match x with EObj | EFlt _ => true | _ => false end) (a_data a)
      else forallb (fun x => dkind_eqb (elt_kind x) (a_kind a)) (a_data a))
  | VStr _ _ => true
  | VScal e => negb (dkind_eqb (elt_kind e) KU)
  | VList _ => false
  end.

Lemma dkind_eqb_true a b : dkind_eqb a b = true -> a = b.
Proof. destruct a, b; cbn; congruence. Qed.

Lemma soundb_ok v : soundb v = true -> sound_value v.
Proof.
  destruct v as [b t|e|a|l]; cbn [soundb]; intro H.
  - left. exact I.
  - left. cbn. intro Q. rewrite Q in H. discriminate H.
  - apply andb_true_iff in H. destruct H as [W H]. destruct (a_mask a) eqn:M.
    + right. rewrite !andb_true_iff in H. destruct H as [[K X] F]. exists a. split; [reflexivity|]. split; [exact W|]. split; [exact M|].
      split; [apply dkind_eqb_true; exact K|]. split.
      * apply existsb_exists in X. destruct X as [x [I X]]. destruct x; try discriminate X. exact I.
      * intros x I. rewrite forallb_forall in F. specialize (F x I). destruct x; try discriminate F; eauto.
    + left. split; [exact W|]. split; [exact M|]. intros x I. rewrite forallb_forall in H. apply dkind_eqb_true. apply H, I.
  - discriminate H.
Qed.

Definition storableb (cv : convention) (o : sofa) : bool :=
  forallb (fun kv => soundb (snd kv)) (pub o)
  && forallb (fun k => if startswith "GLOBAL_" k then legalb dataset_members (sdrop 7 k) else true) (dkeys (pub o))
  && forallb (fun x => storable_varb (fst (fst x)) (snd (fst x)) (snd x)) (vars cv o)
  && forallb (fun x => forallb (fun k => let p := fst (fst x) +++ "_" in
                 if startswith p k then legalb variable_members (sdrop (String.length p) k) else true) (dkeys (pub o))) (vars cv o).

Lemma storableb_ok cv o : ~ size cv o "S" 0 -> storableb cv o = true -> storable cv o.
Proof.
  intros NS H. unfold storableb in H. rewrite !andb_true_iff in H. destruct H as [[[H1 H2] H3] H4].
  assert (VB := all_vars storable_varb H3). clear H3.
  assert (X : forall k e v, is_variable cv o k e v -> (has_char "." k = false /\ name_valid (netcdf_name k) = true)
    /\ (exists d, e_dims e = Some d /\ dims_tidy (e_type e) d /\ axes_fit (e_type e) (String.length (main_alternative d)) (shape_of v))
    /\ prod (shape_of v) <> 0 /\ ascii_value v).
  { intros k e v IV. specialize (VB k e v IV). unfold storable_varb in VB. rewrite !andb_true_iff, !negb_true_iff in VB.
    destruct VB as [[[[B1 B2] B3] B4] B5]. split; [auto|]. split; [|split; [apply Nat.eqb_neq; exact B4|apply ascii_valueb_ok; exact B5]].
    destruct (e_dims e) as [d|]; [|discriminate]. exists d. apply andb_true_iff in B3. destruct B3 as [B3 B6].
    split; [reflexivity|]. split; [apply dims_tidyb_ok; exact B3|apply axes_fitb_ok; exact B6]. }
  constructor.
  - intros k v G. apply soundb_ok. apply dget_In in G. rewrite forallb_forall in H1. apply (H1 _ G).
  - intros r C. assert (Y := all_keys _ _ H2 _ C). cbv beta in Y.
    assert (S1 : startswith "GLOBAL_" ("GLOBAL_" +++ r) = true) by (apply prefix_spec; eauto). rewrite S1 in Y.
    apply legalb_ok. exact Y.
  - intros k e v r IV C. apply vars_in in IV. rewrite forallb_forall in H4. specialize (H4 _ IV). cbn [fst snd] in H4. cbv zeta in H4. clear IV. rename H4 into IV. rewrite forallb_forall in IV. specialize (IV _ C). cbv beta in IV.
    rewrite <- sapp_assoc in IV.
    assert (S1 : startswith (k +++ "_") ((k +++ "_") +++ r) = true) by (apply prefix_spec; eauto). rewrite S1 in IV.
    rewrite sdrop_app in IV. apply legalb_ok. exact IV.
  - intros k e v IV. apply X with (1 := IV).
  - intros k e v IV. apply X with (1 := IV).
  - intros k e v IV _. apply X with (1 := IV).
  - intros k e v IV _. split; [apply X with (1 := IV)|]. intro S0. destruct (NS S0).
Qed.

(** ** Faithful *)
Definition clean_keyb (k : string) : bool :=
  negb (is_private k) && negb (String.eqb k "list_dimensions") && negb (String.eqb k "protected").
Definition elt_fine (x : elt) : bool :=
  match x with
  | EStr t => negb (endswith (nuls 1) t)
  | _ => match to_double x with Ok f => negb (f_eqb fill64 f) | Err _ => true end
  end.
Definition faithfulb (cv : convention) (o : sofa) : bool :=
  forallb clean_keyb (dkeys (pub o))
  && forallb (fun k => if is_attrb cv o k
       then (startswith "GLOBAL_" k || existsb (fun x => startswith (fst (fst x) +++ "_") k) (vars cv o)) else true) (dkeys (pub o))
  && forallb (fun x => forallb (fun k =>
        if startswith (fst (fst x) +++ "_") k
        then is_attrb cv o k && negb (startswith "GLOBAL_" k)
             && negb (String.eqb (sdrop (String.length (fst (fst x) +++ "_")) k) "_Encoding")
             && forallb (fun y => if startswith (fst (fst y) +++ "_") k then String.eqb (fst (fst y)) (fst (fst x)) else true) (vars cv o)
        else true) (dkeys (pub o))) (vars cv o)
  && forallb (fun k => if startswith "GLOBAL_" k then is_attrb cv o k else true) (dkeys (pub o))
  && forallb (fun kv => match snd kv with VStr _ t => if is_attrb cv o (fst kv) then negb (has_char Ascii.zero t) else true | _ => true end) (pub o)
  && forallb (fun x => forallb elt_fine (elements (snd x))) (vars cv o).

Lemma faithfulb_ok cv o : faithfulb cv o = true -> faithful cv o.
Proof.
  unfold faithfulb. rewrite !andb_true_iff. intros [[[[[H1 H2] H3] H4] H5] H6].
  assert (EF := all_vars (fun _ _ v => forallb elt_fine (elements v)) H6).
  constructor.
  - intros k C. apply (all_keys _ _ H1) in C. unfold clean_keyb in C. rewrite !andb_true_iff, !negb_true_iff, !String.eqb_neq in C.
    destruct C as [[C1 C2] C3]. split; auto.
  - intros k A. assert (Y := all_keys _ _ H2 k (proj1 A)). cbv beta in Y. rewrite (is_attrb_of _ _ _ A) in Y.
    apply orb_true_iff in Y. destruct Y as [Y|Y]; [left; apply prefix_spec in Y; exact Y|].
    right. apply existsb_exists in Y. destruct Y as [[[j e] v] [IN P]]. cbn [fst snd] in P. apply prefix_spec in P. destruct P as [r ->].
    exists j, r. split; [|apply sapp_assoc]. apply in_flat_map in IN. destruct IN as [[k' v'] [I1 I2]]. cbn [fst snd] in I2.
    destruct (declared cv o k') as [e'|] eqn:D; [|destruct I2]. destruct (String.eqb_spec (e_type e') "attribute") as [Q|N]; [destruct I2|].
    destruct I2 as [I2|[]]. injection I2 as -> -> ->. 
    assert (C : contained o j) by (apply in_map_iff; exists (j, v); auto). apply dget_Some_In in C. destruct C as [w G].
    exists e, w. split; [exact D|]. split; assumption.
  - intros j r k [[e [v IV]] ->] C. apply vars_in in IV. rewrite forallb_forall in H3. specialize (H3 _ IV). cbn [fst snd] in H3. clear IV. rename H3 into IV. rewrite forallb_forall in IV. specialize (IV _ C). cbv beta in IV.
    rewrite <- sapp_assoc in IV, C |- *.
    assert (S1 : startswith (j +++ "_") ((j +++ "_") +++ r) = true) by (apply prefix_spec; eauto). rewrite S1 in IV.
    rewrite sdrop_app in IV. rewrite !andb_true_iff, !negb_true_iff in IV. destruct IV as [[[I1 I2] I3] I4].
    split; [apply is_attrb_ok; assumption|]. split.
    { intros s Q. assert (Z : startswith "GLOBAL_" ((j +++ "_") +++ r) = true) by (apply prefix_spec; eauto). congruence. }
    split; [apply String.eqb_neq; exact I3|]. intros j' r' [[e' [v' IV']] Q].
    apply vars_in in IV'. rewrite forallb_forall in I4. specialize (I4 _ IV'). cbn [fst snd] in I4. clear IV'. rename I4 into IV'.
    assert (S2 : startswith (j' +++ "_") ((j +++ "_") +++ r) = true) by (apply prefix_spec; exists r'; rewrite Q; apply (eq_sym (sapp_assoc _ _ _))).
    rewrite S2 in IV'. apply String.eqb_eq. exact IV'.
  - intros r C. assert (Y := all_keys _ _ H4 _ C). cbv beta in Y.
    assert (S1 : startswith "GLOBAL_" ("GLOBAL_" +++ r) = true) by (apply prefix_spec; eauto). rewrite S1 in Y.
    apply is_attrb_ok; assumption.
  - intros k b t A G. rewrite forallb_forall in H5. specialize (H5 _ (dget_In _ _ _ G)). cbn [fst snd] in H5.
    rewrite (is_attrb_of _ _ _ A) in H5. apply negb_true_iff in H5. exact H5.
  - intros k e v t IV I r Q. specialize (EF k e v IV). rewrite forallb_forall in EF. specialize (EF _ I). cbn [elt_fine] in EF.
    assert (Z : endswith (nuls 1) t = true) by (apply endswith_iff; eauto). rewrite Z in EF. discriminate.
  - intros k e v x f IV I N. specialize (EF k e v IV). rewrite forallb_forall in EF. specialize (EF _ I).
    assert (T := proj2 (to_double_iff x f) N). destruct N; cbn [elt_fine] in EF; rewrite T in EF; apply negb_true_iff in EF; exact EF.
Qed.

(** ** Readable again *)
Definition same_lettersb (m alt : string) : bool :=
  forallb (fun ix => if is_lower_ascii (snd ix)
                     then match nth_error (chars alt) (fst ix) with
                          | Some y => Ascii.eqb (upper_char y) (upper_char (snd ix))
                          | None => false
                          end
                     else true)
    (combine (seq 0 (List.length (chars m))) (chars m)).
Definition againb_var (e : entry) : bool :=
  match e_dims e with
  | Some d => forallb (same_lettersb (main_alternative d)) (alternatives d) && (String.length (main_alternative d) <=? 4)
  | None => true
  end.
Definition again_attr (cv : convention) (o : sofa) (k : string) : bool :=
  if dmem k (pub o) then is_attrb cv o k else true.
Definition readable_againb (E : env) (cv : convention) (o : sofa) : bool :=
  forallb (fun x => againb_var (snd (fst x))) (vars cv o)
  && forallb (fun ke => dmem (fst ke) (pub o) && match e_dims (snd ke) with
       | Some d => match alternatives d with [x] => String.eqb x d && String.eqb (smap custom_dim_char d) d | _ => false end
       | None => true end) (own_custom cv o)
  && forallb (fun k => match declared cv o k with
       | Some e => if String.eqb (e_type e) "attribute" then match e_dims e with None => true | Some _ => false end else true
       | None => true end) (dkeys (pub o))
  && forallb (fun k => dmem k cv) (dkeys (creation_entries E))
  && forallb (fun k => negb (smem k class_attrs)) (dkeys (pub o))
  && forallb (fun kr => match r_value (snd kr), r_specific (snd kr) with
       | None, None => true
       | _, _ => again_attr cv o (python_name (fst kr))
       end) (rules E)
  && forallb (fun kr => match r_specific (snd kr) with
       | Some sp => forallb (fun xi => forallb (fun d => match snd d with
             | DepVal (Some _) => again_attr cv o (python_name (fst d)) | _ => true end) (snd xi)) sp
       | None => true end) (rules E).

Lemma nth_combine_seq {A} (l : list A) i x n : nth_error l i = Some x -> In (n + i, x) (combine (seq n (List.length l)) l).
Proof.
  revert i n. induction l as [|y l IH]; intros [|i] n H; try discriminate.
  - injection H as ->. left. rewrite Nat.add_0_r. reflexivity.
  - cbn. right. replace (n + S i) with (S n + i) by lia. apply IH. exact H.
Qed.

Lemma again_attr_ok cv o k : again_attr cv o k = true -> contained o k -> is_attribute cv o k.
Proof.
  unfold again_attr. intros H C. assert (D : dmem k (pub o) = true).
  { unfold dmem. apply dget_Some_In in C. destruct C as [v ->]. reflexivity. }
  rewrite D in H. apply is_attrb_ok; assumption.
Qed.

Lemma readable_againb_ok E cv o : readable_againb E cv o = true -> readable_again E cv o.
Proof.
  unfold readable_againb. rewrite !andb_true_iff. intros [[[[[[H1 H2] H3] H4] H5] H6] H7].
  assert (AV := all_vars (fun _ e _ => againb_var e) H1). constructor.
  - intros k e v d alt i x IV ED IA N L. specialize (AV k e v IV). unfold againb_var in AV. rewrite ED in AV.
    apply andb_true_iff in AV. destruct AV as [AV _]. rewrite forallb_forall in AV. specialize (AV alt IA).
    unfold same_lettersb in AV. rewrite forallb_forall in AV. specialize (AV (0 + i, x) (nth_combine_seq _ _ _ 0 N)).
    cbn [fst snd Nat.add] in AV. rewrite L in AV. destruct (nth_error (chars alt) i) as [y|]; [|discriminate].
    exists y. split; [reflexivity|]. apply Ascii.eqb_eq. exact AV.
  - intros k e v d IV ED. specialize (AV k e v IV). unfold againb_var in AV. rewrite ED in AV.
    apply andb_true_iff in AV. apply Nat.leb_le. tauto.
  - intros k e G. rewrite forallb_forall in H2. specialize (H2 _ (dget_In _ _ _ G)). cbn [fst snd] in H2.
    apply andb_true_iff in H2. destruct H2 as [C H2]. split.
    { unfold dmem in C. apply dget_Some_In. destruct (dget k (pub o)); [eauto|discriminate]. }
    intros d ED. rewrite ED in H2. destruct (alternatives d) as [|x [|]]; try discriminate. apply andb_true_iff in H2.
    destruct H2 as [Q1 Q2]. apply String.eqb_eq in Q1. apply String.eqb_eq in Q2. subst x. auto.
  - intros k e [C A] D. assert (Y := all_keys _ _ H3 k C). cbv beta in Y. rewrite D in Y. destruct A as [e' [D' T]].
    assert (e' = e) by congruence. subst e'. rewrite T in Y. cbn [String.eqb Ascii.eqb Bool.eqb] in Y. destruct (e_dims e); [discriminate|reflexivity].
  - intros k I. rewrite forallb_forall in H4. specialize (H4 k I). unfold dmem in H4. destruct (dget k cv); [discriminate|discriminate H4].
  - intros k C. assert (Y := all_keys _ _ H5 k C). cbv beta in Y. apply smem_false. apply negb_true_iff. exact Y.
  - intros k r I C R. rewrite forallb_forall in H6. specialize (H6 _ I). cbn [fst snd] in H6. apply again_attr_ok; [|exact C].
    destruct (r_value r); [exact H6|]. destruct (r_specific r); [exact H6|]. destruct R; congruence.
  - intros k r sp x items d ref I RS IX ID C. rewrite forallb_forall in H7. specialize (H7 _ I). cbn [fst snd] in H7. rewrite RS in H7.
    rewrite forallb_forall in H7. specialize (H7 _ IX). cbn [snd] in H7. rewrite forallb_forall in H7. specialize (H7 _ ID). cbn [fst snd] in H7.
    apply again_attr_ok; assumption.
Qed.
