(** Lemmas about files that are written, read and written again. *)
From Verif Require Import Base BaseFacts PyStr PyNum NdArray Sofa Verify Utils StrFacts SpecAttr SpecInit SpecVerify
  SpecEquals Io SpecIo SpecStore AttrFacts OpFacts CoreFacts ValidFacts ShapeFacts InitFacts AddDelFacts MissingFacts IssueFacts
  VerifyFacts DictFacts DimFacts UpgradeFacts EqualsFacts WriteFacts ReadFacts IoFacts RoundFacts SameFacts AgainFacts TotalFacts
  RewriteFacts SpecStable.
From Coq Require Import Lia.
Open Scope string_scope.
Open Scope list_scope.
Open Scope nat_scope.

(** ** The alternative that is chosen is the first that fits *)
Section First.
Variables (cv : convention) (o o1 : sofa).
Hypothesis RT : reset_to cv o o1.
Hypothesis DO : dicts_ok o.
Hypothesis NL : no_lists o.
Variable s : dacc.
Hypothesis HD : detect o1 = (s, Ok tt).

Lemma match_alt_first act alts dm : match_alt (fixed_sizes s) act alts = Ok (Some dm) ->
  exists pre alt post, alts = pre ++ alt :: post /\ (forall b, In b pre -> ~ fits cv o act b)
    /\ fits cv o act alt /\ dm = upper alt.
Proof.
  induction alts as [|d alts IH]; cbn [match_alt]; [discriminate|].
  intro H. apply rbind_Ok in H. destruct H as [r [H1 H2]].
  destruct (shape_eqb (shape_fit act (List.length r)) r) eqn:Q.
  - inversion H2; subst. exists [], d, alts. split; [reflexivity|]. split; [intros b []|].
    split; [|reflexivity]. apply (fits_iff cv o o1 RT DO NL s HD). eauto.
  - destruct (IH H2) as [pre [alt [post [-> [P1 [P2 P3]]]]]]. exists (d :: pre), alt, post.
    split; [reflexivity|]. split; [|auto]. intros b [<-|I]; [|auto]. intro F.
    apply (fits_iff cv o o1 RT DO NL s HD) in F. destruct F as [r' [R1 R2]]. congruence.
Qed.
End First.

Lemma verified_first E m o o' ev r cv ds : db_ok E -> dicts_ok o -> convention_of E o cv ->
  verify E HRaise m o = (o', ev, Ok r) -> dims o' = Some ds ->
  forall k, In k (variables cv o) -> exists e dd v s pre alt post,
    declared cv o k = Some e /\ e_dims e = Some dd /\ dget k (pub o) = Some v /\ compared_shape (e_type e) dd v s
    /\ alternatives dd = pre ++ alt :: post /\ (forall b, In b pre -> ~ fits cv o s b) /\ fits cv o s alt
    /\ dget k ds = Some (upper alt).
Proof.
  intros DB DO CO H DS. destruct (raise_ok_core _ _ _ _ _ _ H) as [o1 [e1 [w [a [d [R [M [T [_ [OD [D [L _]]]]]]]]]]]].
  destruct (reset_iff E o DB DO) as [RI _].
  destruct (RI _ R) as [b [c [wv [content [V1 [V2 [V3 RT]]]]]]].
  assert (HC : sofar_keys content = cv) by (eapply convention_unique; [exact DB|exact CO|]; exists b, c, wv, content; auto).
  rewrite HC in RT.
  assert (TY := proj1 (types_iff E cv o o1 RT) T).
  assert (NL : no_lists o) by (eapply types_no_lists; exact TY).
  destruct (dims_pure_detect _ _ _ _ D) as [s [HD ->]].
  assert (d = ds) by (rewrite OD in DS; cbn in DS; congruence). subst d.
  intros k IV. unfold dims_pure in D. rewrite HD in D. rewrite (dim_keys_eq cv o o1 RT) in D.
  destruct (check_shapes o1 (fixed_sizes s) (variables cv o) [] "") as [d' rr] eqn:CS.
  inversion D; subst d' rr.
  destruct (check_shapes_spec cv o o1 s (variables cv o) (fun k h => h) _ _ _ _ CS) as [I1 [_ I3]].
  destruct (proj1 I1 eq_refl k IV) as [dm CK].
  assert (DK := proj1 (I3 eq_refl k dm) IV CK).
  unfold check_shape in CK.
  apply rbind_Ok in CK. destruct CK as [act [H1 CK]]. apply rbind_Ok in CK. destruct CK as [dd [H2 CK]].
  apply rbind_Ok in CK. destruct CK as [mm [H3 CK]].
  destruct mm as [dm'|]; [|apply rbind_Ok in CK; destruct CK as [vb [_ CK]]; discriminate].
  inversion CK; subst dm'.
  destruct (match_alt_first cv o o1 RT DO NL s HD _ _ _ H3) as [pre [alt [post [A1 [A0 [A2 ->]]]]]].
  unfold dims_of, dgetE in H2. rewrite (rt_conv _ _ _ RT) in H2.
  destruct (declared cv o k) as [e|] eqn:DE; [|discriminate]. cbn [rbind] in H2.
  destruct (e_dims e) as [d2|] eqn:ED; [|discriminate]. inversion H2; subst d2.
  destruct (dget k (pub o)) as [v|] eqn:G.
  - exists e, dd, v, act, pre, alt, post. split; [reflexivity|]. split; [exact ED|]. split; [reflexivity|].
    split; [apply (shape_act_iff cv o o1 RT NL k e dd v act DE ED G); exact H1|]. auto.
  - exfalso. unfold shape_act, getattr, dims_of, dgetE in H1. rewrite (rt_conv _ _ _ RT), (rt_pub _ _ _ RT), G, DE in H1.
    cbn [rbind] in H1. rewrite ED in H1. cbn [rbind] in H1. destruct (smem k class_attrs); discriminate.
Qed.

(** the first element that has a property *)
Lemma first_unique (P Q : string -> Prop) : forall l pre x post pre' x' post',
  (forall b, In b l -> (P b <-> Q b)) ->
  l = pre ++ x :: post -> (forall b, In b pre -> ~ P b) -> P x ->
  l = pre' ++ x' :: post' -> (forall b, In b pre' -> ~ Q b) -> Q x' -> x = x'.
Proof.
  induction l as [|y l IH]; intros pre x post pre' x' post' PQ E1 N1 H1 E2 N2 H2; [destruct pre; discriminate|].
  destruct pre as [|z pre]; destruct pre' as [|z' pre']; cbn [app] in E1, E2.
  - congruence.
  - exfalso. injection E1 as <- _. injection E2 as <- _. apply (N2 y); [left; reflexivity|]. apply PQ; [left; reflexivity|exact H1].
  - exfalso. injection E1 as <- _. injection E2 as <- _. apply (N1 y); [left; reflexivity|]. apply PQ; [left; reflexivity|exact H2].
  - injection E1 as <- E1. injection E2 as _ E2.
    apply (IH pre x post pre' x' post'); auto.
    + intros b I. apply PQ. right. exact I.
    + intros b I. apply N1. right. exact I.
    + intros b I. apply N2. right. exact I.
Qed.

(** ** Attributes *)
Lemma dget_prefixed {A B} (p : string) (n : nat) (g : A -> B) (l : dict A) b : n = String.length p ->
  dget b (map (fun kv => (sdrop n (fst kv), g (snd kv))) (filter (fun kv => startswith p (fst kv)) l))
  = option_map g (dget (p +++ b) l).
Proof.
  intros ->. induction l as [|[k v] l IH]; [reflexivity|]. cbn [filter fst dget]. destruct (startswith p k) eqn:S.
  - cbn [map dget fst snd]. rewrite IH. assert (X := sdrop_prefix p k S).
    destruct (String.eqb_spec b (sdrop (String.length p) k)) as [->|NE].
    + rewrite <- X, String.eqb_refl. reflexivity.
    + destruct (String.eqb_spec (p +++ b) k) as [EQ|NE2]; [|reflexivity].
      exfalso. apply NE. rewrite <- EQ, sdrop_app. reflexivity.
  - rewrite IH. destruct (String.eqb_spec (p +++ b) k) as [EQ|NE]; [|reflexivity].
    exfalso. assert (startswith p k = true) by (apply prefix_spec; exists b; auto). congruence.
Qed.

(** ** Sizes of the dimensions of a file *)
Definition extents (x : string) (vars : dict ncvar) : list nat :=
  flat_map (fun nv => map snd (filter (fun dn => String.eqb (fst dn) x) (combine (nv_dims (snd nv)) (nv_shape (snd nv))))) vars.

Lemma grow_dget x l : forall d,
  dget x (fold_left (fun d dn => match dget (fst dn) d with
                                 | Some (m, true) => dset (fst dn) (Nat.max m (snd dn), true) d
                                 | _ => d
                                 end) l d)
  = match dget x d with
    | Some (m, true) => Some (fold_left Nat.max (map snd (filter (fun dn => String.eqb (fst dn) x) l)) m, true)
    | r => r
    end.
Proof.
  induction l as [|[y n] l IH]; intro d; cbn [fold_left filter map fst snd]; [destruct (dget x d) as [[m []]|]; reflexivity|].
  rewrite IH. destruct (String.eqb_spec y x) as [->|NE].
  - destruct (dget x d) as [[m []]|] eqn:G; [rewrite dget_dset_same; reflexivity|rewrite G; reflexivity|rewrite G; reflexivity].
  - destruct (dget y d) as [[m []]|]; try reflexivity. rewrite dget_dset_other by congruence. reflexivity.
Qed.

Lemma grown_dget a vars x : dget x (grown a vars)
  = match dget x (new_dims a) with
    | Some (m, true) => Some (fold_left Nat.max (extents x vars) m, true)
    | r => r
    end.
Proof.
  unfold grown. generalize (new_dims a) as d. induction vars as [|nv vars IH]; intro d; cbn [fold_left extents flat_map].
  - destruct (dget x d) as [[m []]|]; reflexivity.
  - rewrite IH. unfold grow_dims. rewrite grow_dget. destruct (dget x d) as [[m []]|]; try reflexivity.
    rewrite fold_left_app. reflexivity.
Qed.

Lemma fold_max l : forall m, m <= fold_left Nat.max l m /\ (forall n, In n l -> n <= fold_left Nat.max l m)
  /\ (fold_left Nat.max l m = m \/ In (fold_left Nat.max l m) l).
Proof.
  induction l as [|x l IH]; intro m; cbn [fold_left].
  - split; [lia|]. split; [intros n []|left; reflexivity].
  - destruct (IH (Nat.max m x)) as [H1 [H2 H3]]. split; [lia|]. split.
    + intros n [<-|I]; [lia|auto].
    + destruct H3 as [H3|H3]; [|right; right; exact H3]. rewrite H3. destruct (Nat.max_spec m x) as [[_ ->]|[_ ->]]; [right; left; reflexivity|left; reflexivity].
Qed.
Lemma fold_max_same l l' m : (forall n, In n l <-> In n l') -> fold_left Nat.max l m = fold_left Nat.max l' m.
Proof.
  intro H. destruct (fold_max l m) as [A1 [A2 A3]]. destruct (fold_max l' m) as [B1 [B2 B3]]. apply Nat.le_antisymm.
  - destruct A3 as [->|A3]; [exact B1|]. apply B2. apply H. exact A3.
  - destruct B3 as [->|B3]; [exact A1|]. apply A2. apply H. exact B3.
Qed.

Lemma new_dims_dget a x : dget x (new_dims a) = option_map (fun n => (n, n =? 0)) (dget x a).
Proof.
  unfold new_dims. induction a as [|[y n] a IH]; [reflexivity|]. cbn [map dget fst snd].
  destruct (String.eqb x y); [reflexivity|exact IH].
Qed.

(** ** The variables of a file *)
Lemma upper_S c : upper_char c = "S"%char -> c = "S"%char \/ c = "s"%char.
Proof. destruct c as [[] [] [] [] [] [] [] []]; vm_compute; intro H; try discriminate H; auto. Qed.

Lemma number_det x u w : number x u -> number x w -> u = w.
Proof. intros H1 H2. apply to_f8_number in H1, H2. congruence. Qed.

Lemma filed_kept l fs : Forall2 filed l fs -> forall d, Forall2 kept_elt l d -> forall gs, Forall2 filed d gs -> fs = gs.
Proof.
  induction 1 as [|x f l fs H _ IH]; intros d F gs F'; inversion F as [|? y ? d0 K F0]; subst; inversion F' as [|? g ? ? H' F1]; subst; [reflexivity|].
  f_equal; [|apply (IH _ F0 _ F1)]. unfold filed in *.
  destruct K as [[h [N ->]]|[-> ->]].
  - destruct H as [H|[-> _]]; [|inversion N]. destruct H' as [H'|[X _]]; [|discriminate X]. inversion H'; subst. eapply number_det; eassumption.
  - destruct H as [H|[_ ->]]; [inversion H|]. destruct H' as [H'|[_ ->]]; [inversion H'|]. reflexivity.
Qed.

Lemma stored_axes E o o' cv a ds k e v x : verified E o o' cv a ds -> storable cv o ->
  is_variable cv o k e v -> stored_var E o' a k x ->
  exists alt n, dget k ds = Some (upper alt) /\ dget "S" a = Some n
    /\ nv_dims x = map str1 (chars (upper alt)) /\ nv_attrs x = vattrs E o' k
    /\ List.length (nv_shape x) = List.length (chars (upper alt))
    /\ (forall i y, nth_error (chars (upper alt)) i = Some y -> exists m, dget (str1 y) a = Some m
          /\ nth_error (nv_shape x) i = Some (if Ascii.eqb y "S" then Nat.max 1 n else m))
    /\ ((e_type e = "double" /\ exists fs, Forall2 filed (elements v) fs /\ nv_data x = DNum KF (Some (EFlt fill64)) (map EFlt fs))
        \/ (e_type e = "string" /\ exists ts, elements v = map EStr ts
              /\ nv_data x = DChar (sconcat (fixed_width (Nat.max 1 n)) (map strip_nul ts)))).
Proof.
  intros V ST IV SX. assert (IV' := IV). destruct IV' as [D [T G]].
  destruct (vd_shape _ _ _ _ _ _ V k (variable_in o cv ST k e v IV)) as [e0 [d [v0 [s [alt [Q1 [Q2 [Q3 [Q4 [Q5 [Q6 Q7]]]]]]]]]]].
  rewrite D in Q1. injection Q1 as <-. rewrite G in Q3. injection Q3 as <-.
  destruct (st_dims _ _ ST k e v IV) as [d' [ED [TD _]]]. rewrite Q2 in ED. injection ED as <-.
  destruct (TD alt Q5) as [NE [_ [NS [TD1 TD2]]]].
  destruct (stored_held E o o' cv a ds V ST k e v x IV SX) as [d' [alt' [n [sh [bb [H1 [H2 [H3 [H4 [H5 [H6 H7]]]]]]]]]]].
  rewrite Q6 in H3. injection H3 as H3. rewrite <- H3 in H6.
  destruct SX as [e1 [v1 [d1 [ds1 [n1 [sh1 [data1 [b1 [t1 [X1 [_ [X3 [X4 [X5 [_ [_ [_ [X8 [_ [_ [_ X9]]]]]]]]]]]]]]]]]]]]].
  assert (DN : d1 = upper alt). { rewrite (vd_dims _ _ _ _ _ _ V) in X4. injection X4 as <-. congruence. } subst d1.
  destruct (shape_in_at _ _ _ _ X8) as [LT AT]. rewrite map_length in LT.
  assert (SH : nv_shape x = t1) by (rewrite X9; reflexivity).
  assert (PZ : prod (shape_of v) <> 0) by (destruct H5; assumption).
  assert (PS : prod s <> 0) by (rewrite (compared_prod _ _ _ _ Q4); exact PZ).
  assert (LC : List.length (chars (upper alt)) = String.length alt) by (rewrite chars_length, upper_length; reflexivity).
  exists alt, n. split; [exact Q6|]. split; [exact H4|]. split; [exact H6|]. split; [exact H7|]. split; [rewrite SH; exact LT|]. split.
  - intros i y Y. rewrite upper_chars, nth_error_map in Y. destruct (nth_error (chars alt) i) as [z|] eqn:Z; [|discriminate].
    injection Y as <-.
    destruct (AT i (str1 (upper_char z))) as [m [n' [N1 [N2 N3]]]].
    { rewrite nth_error_map, upper_chars, nth_error_map, Z. reflexivity. }
    exists n'. split; [exact N2|]. rewrite SH. destruct (Ascii.eqb_spec (upper_char z) "S") as [EQ|NQ].
    + destruct (upper_S z EQ) as [EZ|EZ]; rewrite EZ in Z; [|apply nth_error_In, has_char_In in Z; congruence].
      rewrite SH in H5. clear H3. inversion H5 as [sh0 fs t0 Y1 Y2 Y3 Y6 Y7|sh0 ts t0 Y1 Y2 Y3 Y4 Y7 Y8]; subst.
      * apply nth_error_In, has_char_In in Z. rewrite (TD1 Y1) in Z. discriminate.
      * destruct (TD2 Y1) as [bb' [-> BB]]. rewrite chars_app in Z.
        assert (LB : List.length t0 = String.length bb').
        { rewrite app_length, LC, sapp_length in LT. cbn in LT. lia. }
        destruct (Nat.lt_ge_cases i (List.length (chars bb'))) as [LI|LI].
        { rewrite nth_error_app1 in Z by exact LI. apply nth_error_In, has_char_In in Z. congruence. }
        rewrite nth_error_app2 in Z by exact LI. destruct (i - List.length (chars bb')) as [|[|j]] eqn:IJ; try discriminate.
        rewrite chars_length in *. rewrite nth_error_app2 by lia. rewrite LB, IJ. reflexivity.
    + rewrite N1. f_equal. apply N3. specialize (Q7 i z Z). unfold extent in Q7.
      destruct (Ascii.eqb_spec z "S") as [EZ|NZ]; [contradiction NQ; rewrite EZ; reflexivity|].
      apply (vd_size _ _ _ _ _ _ V) in Q7. rewrite Q7 in N2. injection N2 as <-. apply nth_nonzero. exact PS.
  - clear H3. inversion H5 as [sh0 fs t0 Y1 Y2 Y3 Y6 Y7|sh0 ts t0 Y1 Y2 Y3 Y4 Y7 Y8]; subst; [left|right]; eauto.
Qed.

(** ** Two objects with the same data *)
Section Two.
Variables (E : env) (o o' p p' : sofa) (cv : convention) (a b : dict nat) (ds dt : dict string) (f g : ncfile).
Hypothesis V1 : verified E o o' cv a ds.
Hypothesis V2 : verified E p p' cv b dt.
Hypothesis S1 : storable cv o.
Hypothesis S2 : storable cv p.
Hypothesis F1 : faithful cv o.
Hypothesis F2 : faithful cv p.
Hypothesis W1 : write_content E o' empty_file = (f, Ok tt).
Hypothesis W2 : write_content E p' empty_file = (g, Ok tt).
Hypothesis SE : same_entries cv o p.
Hypothesis SZ : forall x n, size cv p x n <-> size cv o x n.
(** the same alternatives are chosen *)
Hypothesis AL : forall k e v, is_variable cv o k e v -> exists e' w,
  is_variable cv p k e' w /\ e_type e' = e_type e /\ dget k ds = dget k dt.
Hypothesis AP : forall k e v, is_variable cv p k e v -> exists e0 v0, is_variable cv o k e0 v0.

Lemma api_same x : dget x a = dget x b.
Proof.
  destruct (dget x a) as [n|] eqn:A.
  - symmetry. apply (vd_size _ _ _ _ _ _ V2). apply SZ. apply (vd_size _ _ _ _ _ _ V1). exact A.
  - destruct (dget x b) as [n|] eqn:B; [|reflexivity].
    apply (vd_size _ _ _ _ _ _ V2), SZ, (vd_size _ _ _ _ _ _ V1) in B. congruence.
Qed.

Lemma attrs_same k : contained o k -> is_attribute cv o k ->
  option_map (fun v => VStr false (remove_nul (py_str E v))) (dget k (pub o'))
  = option_map (fun v => VStr false (remove_nul (py_str E v))) (dget k (pub p')).
Proof.
  intros C AT. rewrite (vd_pub _ _ _ _ _ _ V1), (vd_pub _ _ _ _ _ _ V2).
  destruct (se_attrs _ _ _ SE k AT) as [t [u [G1 G2]]]. rewrite G1, G2. reflexivity.
Qed.
Lemma absent_same {A} (h : value -> A) k : ~ contained o k -> option_map h (dget k (pub o')) = option_map h (dget k (pub p')).
Proof.
  intro C. rewrite (vd_pub _ _ _ _ _ _ V1), (vd_pub _ _ _ _ _ _ V2).
  assert (C' : ~ contained p k) by (intro X; apply C; apply (se_names _ _ _ SE); exact X).
  rewrite (proj2 (dget_None k (pub o)) C), (proj2 (dget_None k (pub p)) C'). reflexivity.
Qed.
Lemma contained_dec q k : contained q k \/ ~ contained q k.
Proof. unfold contained. destruct (in_dec string_dec k (dkeys (pub q))); auto. Qed.

Lemma gattrs_same r : dget r (nf_attrs f) = dget r (nf_attrs g).
Proof.
  destruct (written E o o' cv a ds f V1 W1) as [A1 _]. destruct (written E p p' cv b dt g V2 W2) as [A2 _]. rewrite A1, A2.
  unfold gattrs. rewrite !(dget_prefixed "GLOBAL_" 7 (fun v => VStr false (remove_nul (py_str E v)))) by reflexivity.
  destruct (contained_dec o ("GLOBAL_" +++ r)) as [C|C]; [|apply absent_same; exact C].
  apply attrs_same; [exact C|]. apply (fa_global _ _ F1). exact C.
Qed.
Lemma vattrs_same k e v r : is_variable cv o k e v -> dget r (vattrs E o' k) = dget r (vattrs E p' k).
Proof.
  intro IV. unfold vattrs. rewrite !(dget_prefixed (k +++ "_") (String.length k + 1) (fun v => VStr false (remove_nul (py_str E v)))) by (symmetry; apply slength_1).
  rewrite sapp_assoc. destruct (contained_dec o (k +++ "_" +++ r)) as [C|C]; [|apply absent_same; exact C].
  apply attrs_same; [exact C|]. apply (fa_once _ _ F1 k r); [split; eauto|exact C].
Qed.


Lemma var_same k e v x y : is_variable cv o k e v -> stored_var E o' a k x -> stored_var E p' b k y -> same_var x y.
Proof.
  intros IV SX SY. destruct (AL k e v IV) as [e' [w [IW [TE DK]]]].
  destruct (stored_axes E o o' cv a ds k e v x V1 S1 IV SX) as [alt [n [A1 [A2 [A3 [A4 [A5 [A6 A7]]]]]]]].
  destruct (stored_axes E p p' cv b dt k e' w y V2 S2 IW SY) as [alt' [n' [B1 [B2 [B3 [B4 [B5 [B6 B7]]]]]]]].
  assert (n' = n) by (rewrite <- api_same in B2; congruence). subst n'.
  assert (UU : upper alt' = upper alt) by congruence. rewrite UU in *.
  constructor.
  - congruence.
  - apply (nth_ext _ _ 0 0); [congruence|]. intros i I. rewrite A5 in I. destruct (nth_error (chars (upper alt)) i) as [c|] eqn:C.
    + destruct (A6 i c C) as [m [M1 M2]]. destruct (B6 i c C) as [m' [M3 M4]]. rewrite <- api_same, M1 in M3. injection M3 as <-.
      rewrite (nth_of_error _ _ _ 0 M2), (nth_of_error _ _ _ 0 M4). reflexivity.
    + apply nth_error_None in C. lia.
  - destruct A7 as [[T [fs [N1 ->]]]|[T [ts [N1 ->]]]]; destruct B7 as [[T' [gs [N2 ->]]]|[T' [us [N2 ->]]]]; try congruence.
    + destruct (se_numbers _ _ _ SE k e v IV T) as [w' [s [hs [Y1 [Y2 [_ [Y3 _]]]]]]].
      assert (w' = w) by (destruct IW as [_ [_ G]]; congruence). subst w'.
      assert (EW : elements w = hs).
      { destruct w; cbn [value_is elements] in *; [destruct Y2; congruence|destruct Y2 as [_ [Y2 _]]; congruence|destruct Y2 as [_ [Y2 _]]; congruence|destruct Y2]. }
      rewrite EW in N2. f_equal. f_equal.
      apply (filed_kept _ _ N1 _ Y3 _ N2).
    + destruct (se_texts _ _ _ SE k e v IV T) as [w' [s [Y1 [Y2 _]]]].
      assert (w' = w) by (destruct IW as [_ [_ G]]; congruence). subst w'.
      assert (EW : elements w = elements v).
      { destruct w; cbn [value_is elements] in *; [destruct Y2; congruence|destruct Y2 as [_ [Y2 _]]; congruence|destruct Y2 as [_ [Y2 _]]; congruence|destruct Y2]. }
      assert (MM : map EStr us = map EStr ts) by congruence.
      assert (us = ts). { clear - MM. revert us MM. induction ts as [|t ts IH]; intros [|u us] H; try discriminate; [reflexivity|]. cbn [map] in H. injection H as -> H. f_equal. auto. }
      subst us. reflexivity.
  - intro r. rewrite A4, B4. apply (vattrs_same k e v r IV).
Qed.

Lemma find_var q q' c dq h : verified E q q' cv c dq -> write_content E q' empty_file = (h, Ok tt) ->
  forall k e v, is_variable cv q k e v -> exists x, dget (netcdf_name k) (nf_vars h) = Some x /\ stored_var E q' c k x.
Proof.
  intros V W k e v IV. destruct (var_file E q q' cv c dq h V W k e v IV) as [x [IX SX]].
  destruct (written E q q' cv c dq h V W) as [_ [_ [_ [N _]]]]. exists x. split; [apply In_dget; assumption|exact SX].
Qed.

Lemma vars_same n : (dget n (nf_vars f) = None /\ dget n (nf_vars g) = None)
    \/ exists x y, dget n (nf_vars f) = Some x /\ dget n (nf_vars g) = Some y /\ same_var x y.
Proof.
  destruct (dget n (nf_vars f)) as [x|] eqn:G1.
  - right. apply dget_In in G1.
    destruct (file_var E o o' cv a ds f V1 S1 W1 n x G1) as [k [e [v [? [? [? [? [? [IV [-> _]]]]]]]]]].
    destruct (find_var _ _ _ _ _ V1 W1 k e v IV) as [x' [X1 X2]].
    assert (x' = x). { destruct (written E o o' cv a ds f V1 W1) as [_ [_ [_ [N _]]]]. apply (In_dget _ _ _ N) in G1. congruence. } subst x'.
    destruct (AL k e v IV) as [e' [w [IW _]]]. destruct (find_var _ _ _ _ _ V2 W2 k e' w IW) as [y [Y1 Y2]].
    exists x, y. split; [reflexivity|]. split; [exact Y1|]. apply (var_same k e v x y IV X2 Y2).
  - left. split; [reflexivity|]. destruct (dget n (nf_vars g)) as [y|] eqn:G2; [|reflexivity]. exfalso. apply dget_In in G2.
    destruct (file_var E p p' cv b dt g V2 S2 W2 n y G2) as [k [e [v [? [? [? [? [? [IV [-> _]]]]]]]]]].
    destruct (AP k e v IV) as [e0 [v0 IV0]]. destruct (find_var _ _ _ _ _ V1 W1 k e0 v0 IV0) as [z [X1 _]]. congruence.
Qed.

Lemma extents_same x n : In n (extents x (nf_vars f)) <-> In n (extents x (nf_vars g)).
Proof.
  assert (K : forall h1 h2 : dict ncvar, NoDup (dkeys h1) -> (forall m y, dget m h1 = Some y -> exists z, dget m h2 = Some z
     /\ nv_dims y = nv_dims z /\ nv_shape y = nv_shape z) -> In n (extents x h1) -> In n (extents x h2)).
  { intros h1 h2 N H I. unfold extents in *. apply in_flat_map in I. destruct I as [[m y] [I J]]. apply (In_dget _ _ _ N) in I.
    destruct (H m y I) as [z [Z1 [Z2 Z3]]]. apply in_flat_map. exists (m, z). split; [apply dget_In; exact Z1|].
    cbn [snd] in *. rewrite <- Z2, <- Z3. exact J. }
  destruct (written E o o' cv a ds f V1 W1) as [_ [_ [_ [N1 _]]]]. destruct (written E p p' cv b dt g V2 W2) as [_ [_ [_ [N2 _]]]].
  split; apply K; auto; intros m y G.
  - destruct (vars_same m) as [[Q _]|[y' [z [Q1 [Q2 [Q3 Q4 _ _]]]]]]; [congruence|]. exists z. assert (y' = y) by congruence. subst. auto.
  - destruct (vars_same m) as [[_ Q]|[z [y' [Q1 [Q2 [Q3 Q4 _ _]]]]]]; [congruence|]. exists z. assert (y' = y) by congruence. subst. auto.
Qed.

Lemma files_same : same_file f g.
Proof.
  constructor; [|exact gattrs_same|exact vars_same]. intro x.
  destruct (written E o o' cv a ds f V1 W1) as [_ [_ [D1 _]]]. destruct (written E p p' cv b dt g V2 W2) as [_ [_ [D2 _]]].
  rewrite D1, D2, !grown_dget, !new_dims_dget, api_same. destruct (dget x b) as [n|]; [|reflexivity]. cbn [option_map].
  destruct (n =? 0); [|reflexivity]. f_equal. f_equal. apply fold_max_same. apply extents_same.
Qed.
End Two.

(** ** Reading and writing again *)
Section Agree.
Variables (E : env) (o o' oi q : sofa) (c vv : string) (cv : convention) (a : dict nat) (ds : dict string) (f : ncfile) (its : list item).
Hypothesis V : verified E o o' cv a ds.
Hypothesis ST : storable cv o.
Hypothesis FA : faithful cv o.
Hypothesis WC : write_content E o' empty_file = (f, Ok tt).
Hypothesis RA : readable_again E cv o.
Hypothesis VO : valid_for E VWrite o c vv cv.
Hypothesis NC : new_content E cv false (pub oi).
Hypothesis CI : custom oi = None.
Hypothesis CV : forall k, dget k (conv oi) = dget k cv.
Hypothesis FI : file_items f = Ok its.
Hypothesis DO : dicts_ok o.
Hypothesis DQ : dicts_ok q.
Hypothesis Q : q = left_over (map i_name its) (fst (enter its (start oi))).

(** the same alternatives fit *)
Lemma shapes_agree k e v : is_variable cv o k e v -> exists d e' w s s2,
  e_dims e = Some d /\ declared cv q k = Some e' /\ e_type e' = e_type e /\ e_dims e' = Some d /\ dget k (pub q) = Some w
  /\ compared_shape (e_type e) d v s /\ compared_shape (e_type e) d w s2
  /\ forall b, In b (alternatives d) -> (fits cv o s b <-> fits cv q s2 b).
Proof.
  intro IV.
  destruct (var_again E o o' oi q cv a ds f its V ST FA WC RA NC CI CV FI Q k e v IV)
    as [d [alt' [s [t [w [s' [e' [A1 [A2 [A3 [A4 [A5 [A6 [A7 [A8 [A9 [A10 [A11 A12]]]]]]]]]]]]]]]]]].
  destruct (st_dims _ _ ST k e v IV) as [d' [ED [TD _]]]. rewrite A1 in ED. injection ED as <-.
  assert (LA : forall alt, In alt (alternatives d) -> String.length alt = String.length alt').
  { intros alt IA. destruct (TD alt IA) as [_ [L1 _]]. destruct (TD _ A2) as [_ [L2 _]]. congruence. }
  assert (X : exists s2, compared_shape (e_type e) d w s2 /\ forall i, i < String.length alt' -> nth i s2 1 = nth i s 1).
  { destruct A12 as [[TY [fs [NF [VI [SH _]]]]]|[TY _]].
    - rewrite TY in A7, A3. cbn [String.eqb Ascii.eqb Bool.eqb] in A7. assert (SW := value_shape _ _ _ VI).
      destruct (TD alt' A2) as [_ [LH _]].
      rewrite TY. destruct (le_lt_dec (String.length (hd "" (split "," d))) 1) as [L|L].
      + exists [prod (shape_of w)]. split; [apply cs_single; [discriminate|discriminate|exact L]|].
        intros i I. assert (i = 0) by lia. subst i. cbn [nth]. rewrite SW.
        destruct t as [|m [|]]; cbn in A7; try lia. rewrite <- (A8 0) by (cbn; lia). cbn [nth].
        destruct SH as [->|[P ->]]; cbn in *; lia.
      + exists (shape4 (shape_of w)). split; [apply cs_multi; [discriminate|discriminate|exact L]|].
        intros i I. rewrite SW, <- (A8 i) by lia. destruct SH as [->|[P ->]]; [apply nth_shape4; lia|].
        apply prod_ones_iff in P. rewrite (nth_ones t i P). apply nth_ones. apply ones_shape4. apply ones_tl. exact P.
    - rewrite TY in *. destruct A3 as [s ls _ SV|T1 T2 _|T1 T2 _]; try congruence.
      destruct (strings_q E o o' oi q cv a ds f its V ST FA WC RA NC CI CV FI Q k e v s ls IV TY SV) as [w' [s2 [d2 [G2 [S2 [ED2 [_ N2]]]]]]].
      assert (w' = w) by congruence. subst w'.
      exists s2. split; [econstructor; [auto|exact S2]|]. intros i I. apply N2. assert (d2 = d) by congruence. subst d2.
      rewrite (LA _ (main_in d alt' A2)). exact I. }
  destruct X as [s2 [CS NT]]. exists d, e', w, s, s2.
  split; [exact A1|]. split; [exact A9|]. split; [exact A10|]. split; [exact A11|]. split; [exact A5|]. split; [exact A3|]. split; [exact CS|].
  intros b IB. unfold fits.
  assert (NB : forall i x, nth_error (chars b) i = Some x -> nth i s2 1 = nth i s 1).
  { intros i x X. apply NT. rewrite <- (LA b IB), <- chars_length. apply nth_error_Some. congruence. }
  split; intros H i x X.
  - apply (extent_q E o o' oi q c vv cv a ds f its V ST FA WC RA VO NC CI CV FI DO DQ Q). rewrite (NB i x X). apply H. exact X.
  - rewrite <- (NB i x X). apply (extent_q E o o' oi q c vv cv a ds f its V ST FA WC RA VO NC CI CV FI DO DQ Q). apply H. exact X.
Qed.
End Agree.

Lemma read_agree E name o s s' o' ev cv vo verbose ev2 p :
  db_ok E -> rules_tidy E -> dicts_ok o -> convention_of E o cv -> storable cv o -> faithful cv o -> readable_again E cv o ->
  (forall k e v, is_variable cv o k e v -> endswith "Units" k = false) ->
  write_sofa E name o s = (s', (o', ev, Ok tt)) ->
  read_sofa E s' name vo verbose = (ev2, Ok p) ->
  (forall x n, size cv p x n <-> size cv o x n)
  /\ forall k e v, is_variable cv o k e v -> exists d e' w s s2,
       e_dims e = Some d /\ declared cv p k = Some e' /\ e_type e' = e_type e /\ e_dims e' = Some d /\ dget k (pub p) = Some w
       /\ compared_shape (e_type e) d v s /\ compared_shape (e_type e) d w s2
       /\ forall b, In b (alternatives d) -> (fits cv o s b <-> fits cv p s2 b).
Proof.
  intros DB RT DO CO ST FA RA NU W R. destruct (total_verified E name o s s' o' ev cv DB DO CO W) as [a [ds [f [V [WC FI]]]]].
  destruct (total_valid E name o s s' o' ev cv DB RT DO CO W) as [c [v VL]].
  destruct (total_names E name o s s' o' ev cv DB DO CO W FA c v VL f WC) as [T1 T2].
  apply read_sofa_Ok in R.
  destruct R as [f' [c' [v' [ev0 [oi [q [ev1 [cu [FI' [N1 [N2 [_ [SI [RC [ver [_ R]]]]]]]]]]]]]]]].
  assert (f' = f) by (apply open_file_Ok in FI; apply open_file_Ok in FI'; congruence). subst f'.
  assert (c' = c) by congruence. assert (v' = v) by congruence. subst c' v'.
  destruct (va_file _ _ _ _ _ _ VL) as [ct [F1 F2]].
  destruct (init_version E c v ct vo ev0 oi DB F1 SI) as [NC [CU [CV _]]]. rewrite <- F2 in NC, CV.
  assert (DI := init_dicts _ _ _ _ _ _ _ SI).
  assert (WF := file_is_wf E o o' cv a ds f V ST WC).
  assert (DQ : dicts_ok q) by (apply (read_content_dicts f oi q _ _ WF DI RC)).
  destruct (read_content_Ok _ _ _ _ _ WF (proj1 DI) RC) as [its [IT [_ [_ [QE _]]]]].
  assert (VQ := write_again_q E o o' oi q c v cv a ds f its V ST FA WC RA VL NC CU CV IT DO DQ QE NU).
  assert (X : pub p = pub q /\ own_custom cv p = own_custom cv q).
  { destruct ver; [|subst p; auto]. destruct R as [e2 [r R]].
    destruct (raise_ok_core _ _ _ _ _ _ R) as [o1 [e1 [w [a' [d' [RS [_ [_ [_ [OD _]]]]]]]]]].
    destruct (reset_iff E q DB DQ) as [RI _]. destruct (RI _ RS) as [b [c2 [wv [content [V1 [V2 [V3 RT2]]]]]]].
    assert (CQ : convention_of E q cv).
    { destruct (va_name _ _ _ _ _ _ VQ) as [b' M]. destruct (va_version _ _ _ _ _ _ VQ) as [w' [M1 M2]].
      exists b', c, w', ct. rewrite M2. auto. }
    assert (HC : sofar_keys content = cv).
    { apply (convention_unique E q cv (sofar_keys content) DB CQ). exists b, c2, wv, content. auto. }
    rewrite HC in RT2. subst p. split; [exact (rt_pub _ _ _ RT2)|]. exact (own_custom_reset _ _ _ _ RT2 eq_refl). }
  destruct X as [PP OC]. split.
  - intros x n. rewrite (size_t cv p q PP OC). apply (size_q E o o' oi q c v cv a ds f its V ST FA WC RA VL NC CU CV IT DO DQ QE).
  - intros k e w IV. destruct (shapes_agree E o o' oi q c v cv a ds f its V ST FA WC RA VL NC CU CV IT DO DQ QE k e w IV)
      as [d [e' [u [s1 [s2 [A1 [A2 [A3 [A4 [A5 [A6 [A7 A8]]]]]]]]]]]].
    exists d, e', u, s1, s2. rewrite (declared_t cv p q OC), PP. do 7 (split; [assumption|]). intros b IB. rewrite (A8 b IB).
    unfold fits. split; intros H i x X; apply (extent_t cv p q PP OC); apply H; exact X.
Qed.

Lemma second_file E name o s s' o' ev cv vo verbose ev2 p name2 s2 s3 p' ev3 :
  db_ok E -> rules_tidy E -> dicts_ok o -> convention_of E o cv -> storable cv o -> faithful cv o -> readable_again E cv o ->
  (forall k e v, is_variable cv o k e v -> endswith "Units" k = false) ->
  write_sofa E name o s = (s', (o', ev, Ok tt)) ->
  read_sofa E s' name vo verbose = (ev2, Ok p) ->
  write_sofa E name2 p s2 = (s3, (p', ev3, Ok tt)) ->
  exists f g, file_at s' name f /\ file_at s3 name2 g /\ same_file f g.
Proof.
  intros DB RT DO CO ST FA RA NU W R W'.
  destruct (read_back E name o s s' o' ev cv DB RT DO CO ST W FA RA NU vo verbose ev2 p R)
    as [c [v [VO [VP [DP [SQ [FQ [RQ [SE [TY [VA SI]]]]]]]]]]].
  destruct (read_agree E name o s s' o' ev cv vo verbose ev2 p DB RT DO CO ST FA RA NU W R) as [SZ AG].
  assert (CP : convention_of E p cv).
  { destruct (va_name _ _ _ _ _ _ VP) as [b N]. destruct (va_version _ _ _ _ _ _ VP) as [w [N1 N2]].
    destruct (va_file _ _ _ _ _ _ VP) as [ct [F1 F2]]. exists b, c, w, ct. rewrite N2. auto. }
  destruct (write_sofa_Ok _ _ _ _ _ _ _ W) as [f [e2 [r [V1 [WC1 FA1]]]]].
  destruct (write_sofa_Ok _ _ _ _ _ _ _ W') as [g [e3 [r' [V2 [WC2 FA2]]]]].
  destruct (verify_verified E VWrite o o' e2 r DB DO V1) as [cv1 [a [ds VD1]]].
  assert (cv1 = cv) by (eapply convention_unique; [exact DB|exact CO|apply (vd_cv _ _ _ _ _ _ VD1)]). subst cv1.
  destruct (verify_verified E VWrite p p' e3 r' DB DP V2) as [cv1 [b [dt VD2]]].
  assert (cv1 = cv) by (eapply convention_unique; [exact DB|exact CP|apply (vd_cv _ _ _ _ _ _ VD2)]). subst cv1.
  exists f, g. split; [exact FA1|]. split; [exact FA2|].
  apply (files_same E o o' p p' cv a b ds dt f g VD1 VD2 ST SQ FA WC1 WC2 SE SZ); [|exact VA].
  intros k e x IV. destruct (AG k e x IV) as [d [e' [w [t1 [t2 [A1 [A2 [A3 [A4 [A5 [A6 [A7 A8]]]]]]]]]]]].
  assert (IW : is_variable cv p k e' w) by (split; [exact A2|]; split; [rewrite A3; apply IV|exact A5]).
  exists e', w. split; [exact IW|]. split; [exact A3|].
  destruct (verified_first E VWrite o o' e2 r cv ds DB DO CO V1 (vd_dims _ _ _ _ _ _ VD1) k (variable_in o cv ST k e x IV))
    as [e1 [d1 [v1 [u1 [pre [alt [post [B1 [B2 [B3 [B4 [B5 [B6 [B7 B8]]]]]]]]]]]]]].
  destruct (verified_first E VWrite p p' e3 r' cv dt DB DP CP V2 (vd_dims _ _ _ _ _ _ VD2) k (variable_in p cv SQ k e' w IW))
    as [e4 [d4 [v4 [u4 [pre' [alt' [post' [C1 [C2 [C3 [C4 [C5 [C6 [C7 C8]]]]]]]]]]]]]].
  assert (e1 = e) by (destruct IV; congruence). assert (v1 = x) by (destruct IV as [_ [_ G]]; congruence). subst e1 v1.
  assert (d1 = d) by congruence. subst d1. assert (u1 = t1) by (eapply compared_det; eassumption). subst u1.
  assert (e4 = e') by congruence. assert (v4 = w) by congruence. subst e4 v4.
  assert (d4 = d) by congruence. subst d4. rewrite A3 in C4. assert (u4 = t2) by (eapply compared_det; eassumption). subst u4.
  rewrite B8, C8. f_equal. f_equal.
  exact (first_unique (fits cv o t1) (fits cv p t2) (alternatives d) pre alt post pre' alt' post' A8 B5 B6 B7 C5 C6 C7).
Qed.
