(** Lemmas about the object that is read from a file written before. *)
From Verif Require Import Base BaseFacts PyStr PyNum NdArray Sofa Verify Utils StrFacts SpecAttr SpecInit SpecVerify
  SpecEquals Io SpecIo SpecStore OpFacts CoreFacts ValidFacts ShapeFacts InitFacts AddDelFacts MissingFacts VerifyFacts DictFacts DimFacts UpgradeFacts EqualsFacts
  WriteFacts ReadFacts IoFacts RoundFacts SameFacts.
From Coq Require Import Lia.
Open Scope string_scope.
Open Scope list_scope.
Open Scope nat_scope.

(** ** Declarations made while reading *)
Definition customs (o : sofa) : dict entry := match custom o with Some c => c | None => [] end.
Definition is_new (o : sofa) (k : string) : bool := negb (hasattr o k) && negb (dmem k (conv o)).

Lemma entered_other i o k : k <> i_name i ->
  hasattr (entered i o) k = hasattr o k /\ dget k (conv (entered i o)) = dget k (conv o)
  /\ dget k (customs (entered i o)) = dget k (customs o) /\ is_new (entered i o) k = is_new o k.
Proof.
  intro NE. assert (H1 : hasattr (entered i o) k = hasattr o k).
  { unfold hasattr, dmem. cbn [entered pub]. rewrite dget_dset_other by exact NE. reflexivity. }
  assert (H2 : dget k (conv (entered i o)) = dget k (conv o)).
  { cbn [entered conv]. destruct (_ && _); [apply dget_dset_other; exact NE|reflexivity]. }
  split; [exact H1|]. split; [exact H2|]. split.
  - unfold customs. cbn [entered custom]. destruct (_ && _); [apply dget_dset_other; exact NE|reflexivity].
  - unfold is_new. rewrite H1. unfold dmem. rewrite H2. reflexivity.
Qed.

Lemma entered_same i o :
  dget (i_name i) (conv (entered i o)) = (if is_new o (i_name i) then Some (item_entry i) else dget (i_name i) (conv o))
  /\ dget (i_name i) (customs (entered i o)) = (if is_new o (i_name i) then Some (item_entry i) else dget (i_name i) (customs o)).
Proof.
  unfold is_new, customs. cbn [entered conv custom]. destruct (_ && _); [|auto]. split; apply dget_dset_same.
Qed.

Lemma enter_decl its : forall st k, NoDup (map i_name its) ->
  (~ In k (map i_name its) -> dget k (conv (fst (enter its st))) = dget k (conv (fst st))
     /\ dget k (customs (fst (enter its st))) = dget k (customs (fst st)))
  /\ (forall i, In i its -> i_name i = k ->
        dget k (conv (fst (enter its st))) = (if is_new (fst st) k then Some (item_entry i) else dget k (conv (fst st)))
        /\ dget k (customs (fst (enter its st))) = (if is_new (fst st) k then Some (item_entry i) else dget k (customs (fst st)))).
Proof.
  induction its as [|j its IH]; intros st k N; [split; [auto|intros i []]|]. cbn [map] in N. inversion N as [|? ? NI N']; subst.
  change (enter (j :: its) st) with (enter its (enter1 st j)). destruct (IH (enter1 st j) k N') as [I1 I2]. change (fst (enter1 st j)) with (entered j (fst st)) in I1, I2. split.
  - cbn [map In]. intro NK. destruct (I1 (fun x => NK (or_intror x))) as [A B]. rewrite A, B.
    destruct (entered_other j (fst st) k (fun x => NK (or_introl (eq_sym x)))) as [_ [C [D _]]]. auto.
  - intros i [->|I] Q.
    + subst k. destruct (I1 NI) as [A B]. rewrite A, B. apply entered_same.
    + assert (NE : k <> i_name j). { intros ->. apply NI. rewrite <- Q. apply in_map. exact I. }
      destruct (I2 i I Q) as [A B]. rewrite A, B. destruct (entered_other j (fst st) k NE) as [_ [C [D F]]].
      rewrite F, C, D. auto.
Qed.

Lemma enter_custom_some its : forall st, NoDup (map i_name its) -> custom (fst st) = None -> custom (fst (enter its st)) <> None ->
  exists i, In i its /\ is_new (fst st) (i_name i) = true.
Proof.
  induction its as [|j its IH]; intros st N C H; [contradiction|]. cbn [map] in N. inversion N as [|? ? NI N']; subst.
  destruct (is_new (fst st) (i_name j)) eqn:Q; [exists j; split; [left; reflexivity|exact Q]|].
  change (enter (j :: its) st) with (enter its (enter1 st j)) in H. destruct (IH (enter1 st j) N') as [i [I1 I2]]; [|exact H|].
  - cbn [enter1 fst]. cbn [entered custom]. unfold is_new in Q. rewrite Q. exact C.
  - exists i. split; [right; exact I1|]. change (fst (enter1 st j)) with (entered j (fst st)) in I2. rewrite <- I2. symmetry. apply entered_other.
    intros X. apply NI. rewrite <- X. apply in_map. exact I1.
Qed.

Lemma dget_ddel_all {A} l : forall (c : dict A) k, ~ In k l -> dget k (fold_left (fun c k => ddel k c) l c) = dget k c.
Proof.
  induction l as [|j l IH]; intros c k N; [reflexivity|]. cbn [fold_left]. rewrite IH by (intro I; apply N; right; exact I).
  apply dget_ddel_other. intros ->. apply N. left. reflexivity.
Qed.
Lemma dget_ddel_gone {A} l : forall (c : dict A) k, dget k c = None -> dget k (fold_left (fun c k => ddel k c) l c) = None.
Proof.
  induction l as [|j l IH]; intros c k N; [exact N|]. cbn [fold_left]. apply IH.
  clear - N. induction c as [|[x v] c IH]; [exact N|]. cbn [dget ddel] in *. destruct (String.eqb_spec k x) as [EQ|NE]; [discriminate|].
  destruct (String.eqb j x); [exact N|]. cbn [dget]. rewrite (eqb_neq_s _ _ NE). auto.
Qed.

(** the object after reading: declarations of its entries *)
Lemma read_decl oi its q : NoDup (map i_name its) -> custom oi = None ->
  q = left_over (map i_name its) (fst (enter its (start oi))) ->
  (forall i, In i its -> is_new oi (i_name i) = true ->
     dget (i_name i) (conv q) = Some (item_entry i) /\ dget (i_name i) (customs q) = Some (item_entry i))
  /\ (forall k, is_new oi k = false -> dget k (conv q) = dget k (conv oi) /\ dget k (customs q) = None)
  /\ (forall k, ~ In k (map i_name its) -> dget k (conv q) = dget k (conv oi) /\ dget k (customs q) = None)
  /\ (custom q <> None -> exists i, In i its /\ is_new oi (i_name i) = true).
Proof.
  intros N C ->. set (st := enter its (start oi)). set (ns := map i_name its).
  assert (CO : customs (fst (start oi)) = []) by (unfold customs, start; cbn; rewrite C; reflexivity).
  assert (CL : forall k, In k ns -> dget k (customs (left_over ns (fst st))) = dget k (customs (fst st))).
  { intros k I. unfold customs, left_over. cbn [custom]. destruct (custom (fst st)); [|reflexivity]. apply dget_ddel_all.
    intro J. apply filter_In in J. destruct J as [_ J]. apply negb_true_iff, smem_false in J. contradiction. }
  assert (CN : forall k, dget k (customs (fst st)) = None -> dget k (customs (left_over ns (fst st))) = None).
  { intros k I. unfold customs, left_over in *. cbn [custom]. destruct (custom (fst st)); [|reflexivity]. apply dget_ddel_gone. exact I. }
  change (conv (left_over ns (fst st))) with (conv (fst st)). split; [|split; [|split]].
  - intros i I NW. rewrite CL by (apply in_map; exact I). destruct (enter_decl its (start oi) (i_name i) N) as [_ H].
    destruct (H i I eq_refl) as [H1 H2]. fold st in H1, H2. change (is_new (fst (start oi)) (i_name i)) with (is_new oi (i_name i)) in *.
    rewrite NW in H1, H2. auto.
  - intros k NW. destruct (enter_decl its (start oi) k N) as [H1 H2]. fold st in H1, H2.
    change (is_new (fst (start oi)) k) with (is_new oi k) in *. change (conv (fst (start oi))) with (conv oi) in *. rewrite CO in *.
    destruct (in_dec string_dec k (map i_name its)) as [I|I].
    + apply in_map_iff in I. destruct I as [i [Q I]]. destruct (H2 i I Q) as [A B]. rewrite NW in A, B. split; [exact A|apply CN; exact B].
    + destruct (H1 I) as [A B]. split; [exact A|apply CN; exact B].
  - intros k I. destruct (enter_decl its (start oi) k N) as [H1 _]. fold st in H1. rewrite CO in H1. destruct (H1 I) as [A B].
    split; [exact A|apply CN; exact B].
  - intro H. apply (enter_custom_some its (start oi) N); [exact C|]. fold st. unfold left_over in H. cbn [custom] in H.
    destruct (custom (fst st)); [discriminate|congruence].
Qed.

(** ** Small facts *)
Lemma shape_in_at a dd : forall sh t, shape_in a dd sh = Some t -> List.length t = List.length dd
  /\ forall i x, nth_error dd i = Some x -> exists m n, nth_error t i = Some m /\ dget x a = Some n /\ (n <> 0 -> m = n).
Proof.
  induction dd as [|x dd IH]; intros sh t H; cbn [shape_in] in H.
  - injection H as <-. split; [reflexivity|]. intros [|i] y Y; discriminate Y.
  - destruct (dget x a) as [n|] eqn:G; [|discriminate]. destruct (shape_in a dd (tl sh)) as [r|] eqn:R; [|discriminate].
    destruct (IH _ _ R) as [L A]. assert (X : exists m, t = m :: r /\ (n <> 0 -> m = n)).
    { destruct (Nat.eqb_spec n 0) as [Z|NZ]; [destruct sh; [discriminate|]|]; injection H as <-; eexists; (split; [reflexivity|]); intro; [contradiction|reflexivity]. }
    destruct X as [m [-> X]]. split; [cbn; rewrite L; reflexivity|]. intros [|i] y Y; cbn in Y.
    + injection Y as <-. exists m, n. auto.
    + exact (A i y Y).
Qed.

Lemma nth_of_error {A} (l : list A) i x d : nth_error l i = Some x -> nth i l d = x.
Proof. revert i. induction l as [|y l IH]; intros [|i] H; try discriminate; cbn in *; [congruence|auto]. Qed.

Lemma nth_ones s i : ones s -> nth i s 1 = 1.
Proof. intro H. destruct (nth_in_or_default i s 1) as [I|I]; [apply H; exact I|exact I]. Qed.

Lemma nth_nonzero s i : prod s <> 0 -> nth i s 1 <> 0.
Proof.
  revert i. induction s as [|m s IH]; intros [|i] H; cbn in *; try discriminate; [|apply IH]; intro Z; apply H; rewrite Z; lia.
Qed.

Lemma strings_det v s ls s' ls' : strings v s ls -> strings v s' ls' -> s = s'.
Proof.
  intros H H'. destruct H as [b t|ar n rest ls A1 A2 A3 A4]; inversion H'; subst; [reflexivity|congruence].
Qed.
Lemma compared_det t d v s s' : compared_shape t d v s -> compared_shape t d v s' -> s = s'.
Proof.
  intros H H'. destruct H as [s ls T H|T1 T2 L|T1 T2 L]; destruct H' as [s' ls' T' H'|T1' T2' L'|T1' T2' L'];
    try reflexivity; try (destruct T; congruence); try (destruct T'; congruence); try lia.
  eapply strings_det; eassumption.
Qed.

Lemma strings_lens v s ls ts : strings v s ls -> elements v = map EStr ts -> ls = map String.length ts.
Proof.
  intros H EL. destruct H as [b t|ar n rest ls A1 A2 A3 A4]; cbn [elements] in EL.
  - destruct ts as [|u [|]]; try discriminate. injection EL as <-. reflexivity.
  - rewrite EL in A4. clear - A4. revert ls A4. induction ts as [|t ts IH]; intros ls H; inversion H as [|x l ? ? [s [S1 S2]] R]; subst; [reflexivity|].
    cbn [map]. f_equal; [|apply IH; exact R]. destruct S1 as [S1|S1]; [injection S1 as ->; reflexivity|discriminate].
Qed.

Lemma last_split {A} c (l : list (ascii * A)) : In c (map fst l) -> exists l1 n r, l = l1 ++ (c, n) :: r /\ ~ In c (map fst r).
Proof.
  induction l as [|[d n] l IH]; intro I; [destruct I|]. destruct (in_dec Ascii.ascii_dec c (map fst l)) as [J|J].
  - destruct (IH J) as [l1 [m [r [-> R]]]]. exists ((d, n) :: l1), m, r. auto.
  - destruct I as [<-|I]; [|contradiction]. exists [], n, l. auto.
Qed.

Lemma custom_dim_upper d : smap custom_dim_char (upper d) = smap custom_dim_char d.
Proof.
  unfold upper. induction d as [|c d IH]; [reflexivity|]. cbn [smap]. f_equal; [|exact IH].
  destruct c as [[] [] [] [] [] [] [] []]; vm_compute; reflexivity.
Qed.

(** items of a file *)
Lemma attr_in_items f its b v : file_items f = Ok its -> In (b, v) (nf_attrs f) ->
  exists w, In ("GLOBAL_" +++ b, w, None, "attribute") its.
Proof.
  intros FI I. destruct (file_items_inv f its FI) as [g [l [HG [HV ->]]]]. destruct (rmap_In _ _ _ _ HG I) as [i [H1 H2]].
  cbn [fst snd] in H1. apply attr_item_inv in H1. destruct H1 as [H1 _]. exists (i_value i). rewrite <- H1. apply in_or_app. auto.
Qed.
Lemma var_in_items f its n x : file_items f = Ok its -> In (n, x) (nf_vars f) ->
  exists w, In (undotted n, w, Some (join "" (nv_dims x)), var_type x) its.
Proof.
  intros FI I. destruct (file_items_inv f its FI) as [g [l [HG [HV ->]]]]. destruct (rmap_In _ _ _ _ HV I) as [li [H1 H2]].
  apply var_items_inv in H1. destruct H1 as [v [w [r [_ [_ [_ EL]]]]]]. cbn [fst snd] in EL. exists w.
  apply in_or_app. right. apply in_concat. exists li. split; [exact H2|]. rewrite EL, sofa_name_undotted. left. reflexivity.
Qed.
Lemma vattr_in_items f its n x b v : file_items f = Ok its -> In (n, x) (nf_vars f) -> In (b, v) (nv_attrs x) -> b <> "_Encoding" ->
  exists w, In (undotted n +++ "_" +++ b, w, None, "attribute") its.
Proof.
  intros FI I J NE. destruct (file_items_inv f its FI) as [g [l [HG [HV ->]]]]. destruct (rmap_In _ _ _ _ HV I) as [li [H1 H2]].
  apply var_items_inv in H1. destruct H1 as [v' [w [r [_ [_ [HR EL]]]]]]. cbn [fst snd] in EL, HR.
  assert (K : In (b, v) (kept_attrs x)).
  { apply filter_In. split; [exact J|]. cbn [fst]. rewrite (eqb_neq_s _ _ NE). reflexivity. }
  destruct (rmap_In _ _ _ _ HR K) as [i [H3 H4]]. cbn [fst snd] in H3. apply attr_item_inv in H3. destruct H3 as [H3 _].
  exists (i_value i). rewrite <- sofa_name_undotted, <- H3. apply in_or_app. right. apply in_concat. exists li.
  split; [exact H2|]. rewrite EL. right. exact H4.
Qed.
Lemma join_chars s : join "" (map str1 (chars s)) = s.
Proof.
  induction s as [|c s IH]; [reflexivity|]. cbn [chars list_ascii_of_string map]. unfold chars in IH.
  destruct s as [|d s]; [reflexivity|]. cbn [list_ascii_of_string map] in *. cbn [join] in *. rewrite IH. reflexivity.
Qed.

Lemma chars_length s : List.length (chars s) = String.length s.
Proof. unfold chars. induction s as [|x s IH]; [reflexivity|]. cbn. rewrite IH. reflexivity. Qed.

Section Again.
Variables (E : env) (o o' oi q : sofa) (c vv : string) (cv : convention) (a : dict nat) (ds : dict string) (f : ncfile) (its : list item).
Hypothesis V : verified E o o' cv a ds.
Hypothesis ST : storable cv o.
Hypothesis FA : faithful cv o.
Hypothesis WC : write_content E o' empty_file = (f, Ok tt).
Hypothesis RA : readable_again E cv o.
Hypothesis VO : valid_for E VWrite o c vv cv.
Hypothesis NC : new_content E cv false (pub oi).
Hypothesis CI : custom oi = None.
Hypothesis CV : forall k, dget k (conv oi) = dget k cv.
Hypothesis FI : file_items f = Ok its.
Hypothesis DO : dicts_ok o.
Hypothesis DQ : dicts_ok q.
Hypothesis Q : q = left_over (map i_name its) (fst (enter its (start oi))).

Lemma q_same_data : same_data f q.
Proof.
  apply (items_same_data f its q (file_is_wf E o o' cv a ds f V ST WC) (names_nodup E o o' cv a ds f V ST FA WC) FI).
  intro k. rewrite Q. apply left_over_dget.
Qed.
Lemma q_same : same_entries cv o q.
Proof. apply (same_data_entries E o o' cv a ds f V ST FA WC). apply q_same_data. Qed.

Lemma its_nodup : NoDup (map i_name its).
Proof. rewrite (items_names f its FI). apply (names_nodup E o o' cv a ds f V ST FA WC). Qed.
Lemma its_names k : In k (map i_name its) <-> contained o k.
Proof. rewrite (items_names f its FI). apply (names_iff E o o' cv a ds f V ST FA WC). Qed.

Lemma size_unique x n m : size cv o x n -> size cv o x m -> n = m.
Proof. intros H1 H2. apply (vd_size _ _ _ _ _ _ V) in H1, H2. congruence. Qed.

Lemma contained_declared k : contained o k -> exists e v, declared cv o k = Some e /\ dget k (pub o) = Some v
  /\ has_type (e_type e) v.
Proof.
  intro C. apply dget_Some_In in C. destruct C as [v G]. destruct (vd_type _ _ _ _ _ _ V k v G) as [e [D T]]. eauto.
Qed.
Lemma kinds k : contained o k -> is_attribute cv o k \/ exists e v, is_variable cv o k e v.
Proof.
  intro C. destruct (contained_declared k C) as [e [v [D [G T]]]].
  destruct (string_dec (e_type e) "attribute") as [TA|TA]; [left; split; eauto|right; exists e, v; split; auto].
Qed.
Lemma variable_type k e v : is_variable cv o k e v -> e_type e = "double" \/ e_type e = "string".
Proof.
  intros [D [T G]]. destruct (vd_type _ _ _ _ _ _ V k v G) as [e' [D' TY]]. rewrite D in D'. injection D' as <-.
  destruct TY as [[X _]|[[X _]|[X _]]]; auto. contradiction.
Qed.

(** new entries are those that are not part of the convention *)
Lemma is_new_iff k : contained o k -> is_new oi k = match dget k cv with None => true | Some _ => false end.
Proof.
  intro C. assert (NM := ra_method _ _ _ RA k C). unfold is_new, hasattr, dmem. rewrite CV.
  destruct (dget k cv) as [e|] eqn:G; [apply andb_false_r|]. rewrite andb_true_r.
  assert (CR : dget k (creation_entries E) = None).
  { destruct (dget k (creation_entries E)) as [s|] eqn:K; [|reflexivity]. exfalso.
    apply (ra_created _ _ _ RA k); [|exact G]. apply dget_Some_In. eauto. }
  assert (X := NC k). rewrite CR, G in X. rewrite X. apply smem_false in NM. rewrite NM. reflexivity.
Qed.

Definition RD := read_decl oi its q its_nodup CI Q.

Lemma own_custom_dget k : dget k (own_custom cv q) = match dget k cv with Some _ => None | None => dget k (customs q) end.
Proof.
  unfold own_custom, customs. destruct (custom q) as [cu|]; [|destruct (dget k cv); reflexivity].
  rewrite (dget_filter (fun k => negb (dmem k cv))). unfold dmem. destruct (dget k cv); reflexivity.
Qed.
Lemma declared_q k : declared cv q k = match dget k cv with Some e => Some e | None => dget k (customs q) end.
Proof. unfold declared. rewrite own_custom_dget. destruct (dget k cv); reflexivity. Qed.

Lemma declared_new k i : contained o k -> In i its -> i_name i = k -> dget k cv = None -> declared cv q k = Some (item_entry i).
Proof.
  intros C I N G. rewrite declared_q, G. subst k. apply (proj1 RD i I). rewrite is_new_iff, G by exact C. reflexivity.
Qed.
Lemma declared_absent k : ~ contained o k -> declared cv q k = dget k cv.
Proof.
  intro C. rewrite declared_q. destruct RD as [_ [_ [R _]]]. destruct (R k) as [_ R2]; [rewrite its_names; exact C|].
  rewrite R2. destruct (dget k cv); reflexivity.
Qed.

Lemma attribute_item k : is_attribute cv o k -> exists w, In (k, w, None, "attribute") its.
Proof.
  intro AT. destruct (attr_text E o o' cv a ds V FA k AT) as [b [t [G RN]]].
  destruct (written E o o' cv a ds f V WC) as [W1 _]. assert (P := vd_pub _ _ _ _ _ _ V).
  destruct (fa_home _ _ FA k AT) as [[r ->]|[j [r AJ]]].
  - apply (attr_in_items f its r (VStr false t) FI). rewrite W1. unfold gattrs. rewrite P. apply in_map_iff. exists ("GLOBAL_" +++ r, VStr b t).
    cbn [fst snd]. rewrite RN. split; [reflexivity|]. apply filter_In. split; [apply dget_In; exact G|].
    cbn [fst]. unfold startswith. apply prefix_spec. eauto.
  - assert (AO := AJ). destruct AJ as [[e [v IV]] KE]. destruct (var_file E o o' cv a ds f V WC j e v IV) as [x [IX SX]].
    destruct (stored_held E o o' cv a ds V ST j e v x IV SX) as [? [? [? [? [? [_ [_ [_ [_ [_ [_ VA]]]]]]]]]]].
    assert (I : In (r, VStr false t) (nv_attrs x)).
    { rewrite VA. unfold vattrs. rewrite P. apply in_map_iff. exists (k, VStr b t). cbn [fst snd].
      rewrite RN, KE, sdrop_sub. split; [reflexivity|]. apply filter_In. split; [rewrite <- KE; apply dget_In; exact G|].
      cbn [fst]. unfold startswith. apply prefix_spec. exists r. rewrite sapp_assoc. reflexivity. }
    assert (NE : r <> "_Encoding") by (apply (fa_once _ _ FA j r k AO); apply (proj1 AT)).
    destruct (vattr_in_items f its _ x r _ FI IX I NE) as [w J]. exists w.
    rewrite (netcdf_name_undotted j) in J by apply (st_name _ _ ST j e v IV). rewrite KE. exact J.
Qed.

Lemma declared_attr k : is_attribute cv o k -> exists e, declared cv q k = Some e /\ e_type e = "attribute" /\ e_dims e = None.
Proof.
  intro AT. destruct (dget k cv) as [e|] eqn:G.
  - exists e. assert (DOE : declared cv o k = Some e) by (unfold declared; rewrite G; reflexivity).
    split; [rewrite declared_q, G; reflexivity|]. split; [|eapply (ra_attr _ _ _ RA); eassumption].
    destruct AT as [_ [e' [D T]]]. congruence.
  - destruct (attribute_item k AT) as [w I]. exists (item_entry (k, w, None, "attribute")).
    split; [apply (declared_new k _ (proj1 AT) I eq_refl G)|]. split; reflexivity.
Qed.

Lemma compared_prod ty d v s : compared_shape ty d v s -> prod s = prod (shape_of v).
Proof.
  intro H. destruct H as [s ls T H|T1 T2 L|T1 T2 L]; [|apply shape4_prod|cbn; lia].
  destruct H as [b t|ar n rest ls A1 A2 A3 A4]; [reflexivity|]. cbn [shape_of]. rewrite A1. reflexivity.
Qed.

Lemma declared_var k e v d alt x : is_variable cv o k e v -> e_dims e = Some d -> In alt (alternatives d) ->
  In (netcdf_name k, x) (nf_vars f) -> nv_dims x = map str1 (chars (upper alt)) -> var_type x = e_type e ->
  exists e', declared cv q k = Some e' /\ e_type e' = e_type e /\ e_dims e' = Some d.
Proof.
  intros IV ED IA IX ND VT. assert (D := proj1 IV). destruct (dget k cv) as [e0|] eqn:G.
  - exists e0. unfold declared in D. rewrite G in D. injection D as ->. rewrite declared_q, G. auto.
  - destruct (var_in_items f its _ x FI IX) as [w I]. rewrite (netcdf_name_undotted k) in I by apply (st_name _ _ ST k e v IV).
    exists (item_entry (k, w, Some (join "" (nv_dims x)), var_type x)).
    assert (C : contained o k) by (apply dget_Some_In; exists v; apply IV).
    split; [apply (declared_new k _ C I eq_refl G)|]. split; [exact VT|]. cbn [item_entry e_dims i_dims snd fst option_map].
    f_equal. rewrite ND, join_chars, custom_dim_upper. unfold declared in D. rewrite G in D.
    destruct (ra_custom _ _ _ RA k e D) as [_ RC]. destruct (RC d ED) as [R1 R2]. rewrite R1 in IA. destruct IA as [<-|[]]. exact R2.
Qed.

Lemma texts_unmasked k e v : is_variable cv o k e v -> e_type e = "string" -> masked v = false.
Proof.
  intros [D [T G]] TY. destruct (vd_type _ _ _ _ _ _ V k v G) as [e' [D' HT]]. rewrite D in D'. injection D' as <-. rewrite TY in HT.
  destruct (st_sound _ _ ST k v G) as [R|[ar [-> [_ [_ [K _]]]]]].
  - destruct v as [? ?|?|ar|?]; try reflexivity. apply R.
  - destruct HT as [[X _]|[[X _]|[_ [[b [t X]]|[ar' [X K']]]]]]; try discriminate X. injection X as <-. congruence.
Qed.

Lemma value_is_det w s d s' d' : value_is w s d -> value_is w s' d' -> s' = s /\ d' = d.
Proof. destruct w; cbn [value_is]; intros H H'; intuition congruence. Qed.

Lemma kept_from l d y : Forall2 kept_elt l d -> In y d -> exists x, In x l /\ kept_elt x y.
Proof.
  induction 1 as [|x z l d K _ IH]; intro I; [destruct I|]. destruct I as [->|I]; [exists x; split; [left; reflexivity|exact K]|].
  destruct (IH I) as [x' [X1 X2]]. exists x'. split; [right; exact X1|exact X2].
Qed.

Lemma var_again k e v : is_variable cv o k e v -> exists d alt s t w s' e',
  e_dims e = Some d /\ In alt (alternatives d) /\ compared_shape (e_type e) d v s /\ fits cv o s alt
  /\ dget k (pub q) = Some w /\ masked w = masked v
  /\ List.length t = (if String.eqb (e_type e) "string" then String.length alt - 1 else String.length alt)
  /\ (forall i, i < List.length t -> nth i t 1 = nth i s 1)
  /\ declared cv q k = Some e' /\ e_type e' = e_type e /\ e_dims e' = Some d
  /\ ((e_type e = "double" /\ exists dd, dd <> [] /\ value_is w s' dd /\ (s' = t \/ (prod t = 1 /\ s' = tl t))
           /\ Forall2 kept_elt (elements v) dd /\ (forall ar, w = VArr ar -> a_kind ar = KF))
      \/ (e_type e = "string" /\ exists ts, ts <> [] /\ elements v = map EStr ts /\ value_is w s' (map EStr ts)
           /\ (let t' := match t with [] => [1] | _ => t end in s' = t' \/ (prod t' = 1 /\ s' = tl t'))
           /\ (forall ar, w = VArr ar -> s' <> []))).
Proof.
  intro IV. assert (IV' := IV). destruct IV' as [D [T G]].
  destruct (vd_shape _ _ _ _ _ _ V k (variable_in o cv ST k e v IV)) as [e0 [d [v0 [s [alt [S1 [S2 [S3 [S4 [S5 [S6 S7]]]]]]]]]]].
  rewrite D in S1. injection S1 as <-. rewrite G in S3. injection S3 as <-.
  destruct (st_dims _ _ ST k e v IV) as [d' [ED [TD _]]]. rewrite S2 in ED. injection ED as <-.
  destruct (TD alt S5) as [NE [_ [_ [TD1 TD2]]]].
  destruct (var_file E o o' cv a ds f V WC k e v IV) as [x [IX SX]].
  destruct (stored_held E o o' cv a ds V ST k e v x IV SX) as [d' [alt' [n [sh [b [H1 [H2 [H3 [H4 [H5 [H6 H7]]]]]]]]]]].
  rewrite S6 in H3. injection H3 as H3. rewrite <- H3 in H6.
  destruct SX as [e1 [v1 [d1 [ds1 [n1 [sh1 [data1 [b1 [t1 [X1 [_ [X3 [X4 [X5 [_ [_ [_ [X8 [_ [_ [_ X9]]]]]]]]]]]]]]]]]]]]].
  assert (DN : d1 = upper alt). { rewrite (vd_dims _ _ _ _ _ _ V) in X4. injection X4 as <-. congruence. } subst d1.
  destruct (shape_in_at _ _ _ _ X8) as [LT AT]. rewrite map_length in LT.
  assert (NS : nv_shape x = t1) by (rewrite X9; reflexivity).
  destruct (sd_vars _ _ q_same_data _ _ IX) as [w [GW [s1 [s' [dd [VH [VI [MS [SH [AR _]]]]]]]]]].
  rewrite (netcdf_name_undotted k) in GW by apply (st_name _ _ ST k e v IV).
  assert (PZ : prod (shape_of v) <> 0) by (destruct H5; assumption).
  assert (LE := var_elements E o o' cv a ds V ST k e v IV).
  assert (PS : prod s <> 0) by (rewrite (compared_prod _ _ _ _ S4); exact PZ).
  assert (AX : forall i y, nth_error (chars alt) i = Some y -> y <> "S"%char -> nth i t1 1 = nth i s 1).
  { intros i y Y NY. destruct (AT i (str1 (upper_char y))) as [m [n' [N1 [N2 N3]]]].
    { rewrite nth_error_map, upper_chars, nth_error_map, Y. reflexivity. }
    rewrite (nth_of_error _ _ _ 1 N1). specialize (S7 i y Y). unfold extent in S7.
    destruct (Ascii.eqb_spec y "S") as [EQ|_]; [congruence|]. apply (vd_size _ _ _ _ _ _ V) in S7. rewrite S7 in N2. injection N2 as <-.
    apply N3. apply nth_nonzero. exact PS. }
  assert (LC : List.length (chars (upper alt)) = String.length alt) by (rewrite chars_length, upper_length; reflexivity).
  assert (HM : masked w = masked v).
  { destruct (variable_type k e v IV) as [TY|TY].
    - destruct (se_numbers _ _ _ q_same k e v IV TY) as [w' [? [? [W1 [_ [W2 _]]]]]]. congruence.
    - destruct (se_texts _ _ _ q_same k e v IV TY) as [w' [? [W1 [_ [W2 _]]]]]. rewrite (texts_unmasked k e v IV TY). congruence. }
  assert (DV : var_type x = e_type e -> exists e', declared cv q k = Some e' /\ e_type e' = e_type e /\ e_dims e' = Some d).
  { intro VT. apply (declared_var k e v d alt x IV S2 S5 IX H6 VT). }
  unfold var_type in DV. rewrite NS in *. remember (nv_data x) as DD eqn:EDD. clear H2 H3 H6.
  destruct H5 as [sh fs t0 Y1 Y2 [Y3 [Y4 Y5]] Y6 Y7|sh ts t0 Y1 Y2 Y3 [Y4 [Y5 Y6]] Y7 Y8].
  - destruct DV as [e' [DV1 [DV2 DV3]]]; [congruence|].
    assert (SV : s1 = t0) by (destruct VH; congruence). subst s1.
    destruct (se_numbers _ _ _ q_same k e v IV Y1) as [w' [s2 [d2 [W1 [W2 [_ [W4 [_ W6]]]]]]]].
    assert (w' = w) by congruence. subst w'. destruct (value_is_det _ _ _ _ _ VI W2) as [-> ->].
    exists d, alt, s, t0, w, s', e'. rewrite Y1 in *. cbn [String.eqb Ascii.eqb Bool.eqb].
    split; [exact S2|]. split; [exact S5|]. split; [exact S4|]. split; [exact S7|]. split; [exact GW|]. split; [exact HM|].
    split; [rewrite LT; exact LC|]. split.
    { intros i I. rewrite LT, LC, <- chars_length in I. destruct (nth_error (chars alt) i) as [y|] eqn:YY.
      - apply (AX i y YY). intros ->. apply nth_error_In, has_char_In in YY. rewrite (TD1 eq_refl) in YY. discriminate.
      - apply nth_error_None in YY. lia. }
    split; [exact DV1|]. split; [exact DV2|]. split; [exact DV3|]. left. split; [reflexivity|]. exists dd. split.
    + intros ->. inversion W4 as [Z|]. rewrite <- Z in LE. cbn in LE. congruence.
    + split; [exact VI|]. split; [exact SH|]. split; [exact W4|exact W6].
  - destruct DV as [e' [DV1 [DV2 DV3]]]; [congruence|].
    inversion VH as [kk fill d0 d1 Z1|ss n0 tt0 us Z1 Z2 Z3 Z4 Z5]; [congruence|]. rewrite <- EDD in Z1. injection Z1 as <-.
    rewrite NS in Z2. apply app_inj_tail in Z2. destruct Z2 as [<- <-].
    assert (US : us = ts).
    { apply (texts_same t0 (Nat.max 1 n)); auto.
      - intros u I. destruct (Y3 u I). lia.
      - intros u I. apply (fa_texts _ _ FA k e v u IV). rewrite Y2. apply in_map. exact I.
      - rewrite Y5, <- LE, Y2, map_length. reflexivity. }
    subst us dd. destruct (TD2 Y1) as [bb [-> BB]].
    assert (LB : List.length t0 = String.length bb).
    { rewrite app_length, LC, sapp_length in LT. cbn in LT. lia. }
    exists d, (bb +++ "S"), s, t0, w, s', e'. rewrite Y1 in *. cbn [String.eqb Ascii.eqb Bool.eqb].
    split; [exact S2|]. split; [exact S5|]. split; [exact S4|]. split; [exact S7|]. split; [exact GW|]. split; [exact HM|].
    split; [rewrite LB, sapp_length; cbn; lia|]. split.
    { intros i I. rewrite LB, <- chars_length in I. destruct (nth_error (chars bb) i) as [y|] eqn:YY.
      - rewrite <- (AX i y).
        + rewrite app_nth1; [reflexivity|]. rewrite LB, <- chars_length. exact I.
        + rewrite chars_app, nth_error_app1 by exact I. exact YY.
        + intros ->. apply nth_error_In, has_char_In in YY. rewrite BB in YY. discriminate.
      - apply nth_error_None in YY. lia. }
    split; [exact DV1|]. split; [exact DV2|]. split; [exact DV3|]. right. split; [reflexivity|]. exists ts. split.
    + intros ->. rewrite Y2 in LE. cbn in LE. congruence.
    + split; [exact Y2|]. split; [exact VI|]. rewrite Z4 in *. split; [exact SH|].
      intros ar WA N. destruct (AR ar WA N) as [B|B]; [rewrite <- Z4 in B; destruct t0; discriminate|]. rewrite <- MS, HM, (texts_unmasked k e v IV Y1) in B. discriminate.
Qed.

(** ** Sizes *)
Lemma value_shape w s d : value_is w s d -> shape_of w = s.
Proof. destruct w; cbn; intros [H _] || intro H; congruence || destruct H. Qed.

Lemma axis_at w s d t i : value_is w s d -> (s = t \/ (prod t = 1 /\ s = tl t)) -> List.length t <= 4 -> i < List.length t ->
  axis w i = Some (nth i t 1).
Proof.
  intros VI SH L I. unfold axis. rewrite (value_shape _ _ _ VI). destruct SH as [->|[P ->]].
  - rewrite nth_error_app1 by exact I. apply nth_error_nth'. exact I.
  - apply prod_ones_iff in P. rewrite (nth_ones t i P). destruct t as [|m t]; [cbn in I; lia|]. cbn [tl List.length] in *.
    assert (O : ones (t ++ repeat 1 (4 - List.length t))).
    { intros x X. apply in_app_or in X. destruct X as [X|X]; [apply P; right; exact X|apply repeat_spec in X; exact X]. }
    rewrite (nth_error_nth' _ 1); [rewrite nth_ones by exact O; reflexivity|]. rewrite app_length, repeat_length. lia.
Qed.

Lemma indexed_nth str : forall j i x, In (i, x) (indexed j str) <-> j <= i /\ nth_error (chars str) (i - j) = Some x.
Proof.
  induction str as [|y str IH]; intros j i x; cbn [indexed chars list_ascii_of_string].
  - split; [intros []|]. intros [_ H]. destruct (i - j); discriminate H.
  - cbn [In]. rewrite IH. split.
    + intros [H|[H1 H2]]; [injection H as <- <-; rewrite Nat.sub_diag; split; [lia|reflexivity]|].
      split; [lia|]. replace (i - j) with (S (i - S j)) by lia. exact H2.
    + intros [H1 H2]. destruct (Nat.eq_dec i j) as [->|NE].
      * rewrite Nat.sub_diag in H2. injection H2 as <-. left. reflexivity.
      * right. split; [lia|]. replace (i - j) with (S (i - S j)) in H2 by lia. exact H2.
Qed.

Lemma states_q k e v : is_variable cv o k e v -> forall x n, In (x, n) (states cv q k) ->
  exists m, n = Some m /\ size cv o (str1 x) m /\ exists n', In (x, n') (states cv o k).
Proof.
  intros IV x n I. destruct (var_again k e v IV) as [d [alt [s [t [w [s' [e' [A1 [A2 [A3 [A4 [A5 [A6 [A7 [A8 [A9 [A10 [A11 A12]]]]]]]]]]]]]]]]]].
  unfold states in *. rewrite A9, A5, A11 in I. apply in_map_iff in I. destruct I as [[i y] [X I]].
  apply filter_In in I. destruct I as [I LO]. cbn [snd fst] in *. injection X as X1 X2.
  assert (I0 := I). apply indexed_nth in I. destruct I as [_ I]. rewrite Nat.sub_0_r in I.
  destruct (ra_letters _ _ _ RA k e v d alt i y IV A1 A2 I LO) as [z [Z1 Z2]].
  destruct (st_dims _ _ ST k e v IV) as [d' [ED [TD _]]]. rewrite A1 in ED. injection ED as <-.
  assert (LA : String.length alt = String.length (main_alternative d)).
  { destruct (TD alt A2) as [_ [L1 _]]. destruct (TD _ (main_in d alt A2)) as [_ [L2 _]]. congruence. }
  assert (L4 := ra_four _ _ _ RA k e v d IV A1).
  assert (ZS : z <> "S"%char).
  { intros ->. assert (YS : y = "s"%char).
    { clear - LO Z2. destruct y as [[] [] [] [] [] [] [] []]; vm_compute in LO, Z2; congruence. }
    subst y. destruct (TD _ (main_in d alt A2)) as [_ [_ [NS _]]]. apply nth_error_In, has_char_In in I. rewrite NS in I. discriminate. }
  assert (IT : i < List.length t).
  { assert (IL : i < List.length (chars alt)) by (apply nth_error_Some; congruence). rewrite chars_length in IL. rewrite A7.
    destruct (String.eqb_spec (e_type e) "string") as [TY|TY]; [|exact IL].
    destruct (TD alt A2) as [_ [_ [_ [_ TS]]]]. destruct (TS TY) as [bb [BA BB]]. subst alt. rewrite sapp_length in *. cbn in *.
    destruct (Nat.eq_dec i (String.length bb)) as [->|]; [|lia]. exfalso. apply ZS.
    rewrite chars_app, nth_error_app2, chars_length, Nat.sub_diag in Z1 by (rewrite chars_length; lia). cbn in Z1. congruence. }
  assert (AXQ : axis w i = Some (nth i t 1)).
  { destruct A12 as [[TY [fs [F1 [F2 [F3 _]]]]]|[TY [ts [F1 [_ [F2 [F3 _]]]]]]].
    - eapply axis_at; [exact F2|exact F3| |exact IT]. rewrite A7. destruct (String.eqb (e_type e) "string"); lia.
    - destruct t as [|m0 t]; [cbn in IT; lia|]. eapply axis_at; [exact F2|exact F3| |exact IT].
      rewrite A7. destruct (String.eqb (e_type e) "string"); lia. }
  rewrite A8 in AXQ by exact IT. specialize (A4 i z Z1). unfold extent in A4.
  destruct (Ascii.eqb_spec z "S") as [EQ|_]; [contradiction|]. rewrite Z2, X1 in A4.
  exists (nth i s 1). split; [congruence|]. split; [exact A4|].
  exists (axis v i). rewrite (proj1 IV), (proj2 (proj2 IV)), A1. apply in_map_iff. exists (i, y). cbn [fst snd]. rewrite X1.
  split; [reflexivity|]. apply filter_In. auto.
Qed.

Lemma states_o k e v : is_variable cv o k e v -> map fst (states cv q k) = map fst (states cv o k).
Proof.
  intro IV. destruct (var_again k e v IV) as [d [alt [s [t [w [s' [e' [A1 [A2 [A3 [A4 [A5 [A6 [A7 [A8 [A9 [A10 [A11 A12]]]]]]]]]]]]]]]]]].
  unfold states. rewrite A9, A5, A11, (proj1 IV), (proj2 (proj2 IV)), A1, !map_map. reflexivity.
Qed.

Lemma contained_q k : contained q k <-> contained o k.
Proof. apply (se_names _ _ _ q_same k). Qed.

Lemma in_variables p : dicts_ok p -> forall k, In k (variables cv p) -> exists e d, declared cv p k = Some e /\ e_dims e = Some d.
Proof.
  intros [_ D] k. unfold variables. intro I. apply in_app_or in I. destruct I as [I|I]; apply filter_In in I; destruct I as [I J].
  - destruct (declared cv p k) as [e|]; [|discriminate]. destruct (e_dims e) as [d|] eqn:ED; [|discriminate]. eauto.
  - apply in_map_iff in I. destruct I as [[j e] [X I]]. cbn [fst] in X. subst j. apply filter_In in I. destruct I as [I ED]. cbn [snd] in ED.
    destruct (e_dims e) as [d|] eqn:EQ; [|discriminate].
    unfold own_custom in I. destruct (custom p) as [cu|] eqn:CU; [|destruct I].
    assert (N : dget k cv = None).
    { apply filter_In in I. destruct I as [_ I]. cbn [fst] in I. unfold dmem in I. destruct (dget k cv); [discriminate|reflexivity]. }
    unfold declared, own_custom. rewrite N, CU.
    exists e, d. split; [|exact EQ]. apply In_dget; [|exact I]. apply NoDup_filter_keys. exact D.
Qed.

Lemma variables_variable k : In k (variables cv o) <-> exists e v, is_variable cv o k e v.
Proof.
  split; [|intros [e [v IV]]; eapply variable_in; [exact ST|exact IV]].
  intro I. destruct (in_variables o DO k I) as [e [d [D ED]]].
  assert (C : contained o k) by (apply (proj1 (va_sized _ _ _ _ _ _ VO)); exact I).
  destruct (kinds k C) as [AT|H]; [|exact H]. rewrite (ra_attr _ _ _ RA k e AT D) in ED. discriminate.
Qed.

Lemma variables_q k : In k (variables cv q) <-> exists e v, is_variable cv o k e v.
Proof.
  split.
  - intro I. assert (C : contained o k).
    { unfold variables in I. apply in_app_or in I. destruct I as [I|I]; apply filter_In in I; destruct I as [I J].
      - apply contained_q. exact I.
      - apply in_map_iff in I. destruct I as [[j e] [X I]]. cbn [fst] in X. subst j. apply filter_In in I. destruct I as [I _].
        assert (G : exists e', dget k (own_custom cv q) = Some e').
        { apply dget_Some_In. apply in_map_iff. exists (k, e). auto. }
        destruct G as [e' G]. rewrite own_custom_dget in G. destruct (dget k cv) eqn:GC; [discriminate|].
        apply its_names. destruct (in_dec string_dec k (map i_name its)) as [IN|NI]; [exact IN|].
        destruct RD as [_ [_ [R _]]]. destruct (R k NI). congruence. }
    destruct (in_variables q DQ k I) as [e [d [D ED]]]. destruct (kinds k C) as [AT|H]; [|exact H].
    destruct (declared_attr k AT) as [e' [D' [_ ED']]]. congruence.
  - intros [e [v IV]].
    destruct (var_again k e v IV) as [d [alt [s [t [w [s' [e' [A1 [A2 [A3 [A4 [A5 [A6 [A7 [A8 [A9 [A10 [A11 A12]]]]]]]]]]]]]]]]]].
    unfold variables. apply in_or_app. left. apply filter_In. split; [apply dget_Some_In; eauto|]. rewrite A9, A11. reflexivity.
Qed.

Lemma all_states_q x n : In (x, n) (all_states cv q) -> exists m, n = Some m /\ size cv o (str1 x) m /\ In x (map fst (all_states cv o)).
Proof.
  unfold all_states. intro I. apply in_flat_map in I. destruct I as [k [IK I]]. assert (IK' := IK). apply variables_q in IK'.
  destruct IK' as [e [v IV]]. destruct (states_q k e v IV x n I) as [m [M1 [M2 [n' M3]]]]. exists m. split; [exact M1|]. split; [exact M2|].
  apply in_map_iff. exists (x, n'). split; [reflexivity|]. apply in_flat_map. exists k. split; [|exact M3]. apply variables_variable. eauto.
Qed.
Lemma all_states_o x : In x (map fst (all_states cv o)) -> In x (map fst (all_states cv q)).
Proof.
  unfold all_states. intro I. apply in_map_iff in I. destruct I as [[y n] [X I]]. cbn [fst] in X. subst y. apply in_flat_map in I.
  destruct I as [k [IK I]]. apply variables_variable in IK. destruct IK as [e [v IV]].
  assert (J : In x (map fst (states cv q k))). { rewrite (states_o k e v IV). apply in_map_iff. exists (x, n). auto. }
  apply in_map_iff in J. destruct J as [[y n'] [X J]]. cbn [fst] in X. subst y. apply in_map_iff. exists (x, n').
  split; [reflexivity|]. apply in_flat_map. exists k. split; [apply variables_q; eauto|exact J].
Qed.

(** ** Texts *)
Lemma string_var_q k : string_variable cv q k <-> string_variable cv o k.
Proof.
  assert (X : forall e v d, is_variable cv o k e v -> e_dims e = Some d -> exists e', declared cv q k = Some e' /\ e_dims e' = Some d).
  { intros e v d IV ED. destruct (var_again k e v IV) as [d' [alt [s [t [w [s' [e' [A1 [A2 [A3 [A4 [A5 [A6 [A7 [A8 [A9 [A10 [A11 A12]]]]]]]]]]]]]]]]]].
    exists e'. split; [exact A9|congruence]. }
  unfold string_variable. rewrite variables_q, variables_variable. split; intros [[e [v IV]] [e0 [d [D [ED HS]]]]]; (split; [eauto|]).
  - destruct (st_dims _ _ ST k e v IV) as [d' [ED' _]]. destruct (X e v d' IV ED') as [e' [D' ED'']].
    exists e, d'. split; [apply IV|]. split; [exact ED'|]. congruence.
  - assert (e0 = e) by (destruct IV; congruence). subst e0. destruct (X e v d IV ED) as [e' [D' ED']]. eauto.
Qed.

Lemma strings_q k e v s ls : is_variable cv o k e v -> e_type e = "string" -> strings v s ls ->
  exists w s' d, dget k (pub q) = Some w /\ strings w s' ls /\ e_dims e = Some d /\ compared_shape "string" d v s
    /\ forall i, i < String.length (main_alternative d) -> nth i s' 1 = nth i s 1.
Proof.
  intros IV TY SV. destruct (var_again k e v IV) as [d [alt [s0 [t [w [s' [e' [A1 [A2 [A3 [A4 [A5 [A6 [A7 [A8 [A9 [A10 [A11 A12]]]]]]]]]]]]]]]]]].
  rewrite TY in *. destruct A12 as [[X _]|[_ [ts [NT [EL [VI [SH NA]]]]]]]; [discriminate|].
  assert (LS := strings_lens v s ls ts SV EL).
  assert (CS : compared_shape "string" d v s) by (econstructor; [right; reflexivity|exact SV]).
  assert (s0 = s) by (eapply compared_det; eassumption). subst s0. cbn [String.eqb Ascii.eqb Bool.eqb] in A7.
  destruct (st_dims _ _ ST k e v IV) as [d' [ED [TD _]]]. rewrite A1 in ED. injection ED as <-.
  assert (LA : String.length alt = String.length (main_alternative d)).
  { destruct (TD alt A2) as [_ [L1 _]]. destruct (TD _ (main_in d alt A2)) as [_ [L2 _]]. congruence. }
  assert (L1 : nth (List.length t) s 1 = 1).
  { destruct (TD alt A2) as [_ [_ [_ [_ TS]]]]. destruct (TS TY) as [bb [-> BB]].
    assert (X := A4 (String.length bb) "S"%char). rewrite chars_app, nth_error_app2, chars_length, Nat.sub_diag in X by (rewrite chars_length; lia).
    specialize (X eq_refl). unfold extent in X. cbn in X. rewrite A7, sapp_length. cbn. replace (String.length bb + 1 - 1) with (String.length bb) by lia. exact X. }
  assert (NTH : forall i, i < String.length alt -> nth i (match t with [] => [1] | _ => t end) 1 = nth i s 1).
  { intros i I. destruct (Nat.eq_dec i (List.length t)) as [->|NE].
    - rewrite L1. destruct t; [reflexivity|]. apply nth_overflow. lia.
    - rewrite <- A8 by lia. destruct t; [cbn in *; lia|reflexivity]. }
  assert (HD : exists n rest, s = n :: rest /\ (n <= 1 \/ prod rest = 1)).
  { destruct SV as [b u|ar n rest ls B1 B2 B3 B4]; [exists 1, [1]; auto|exists n, rest; auto]. }
  destruct w as [b u|x|ar|l]; cbn [value_is] in VI.
  - destruct VI as [-> VI]. destruct ts as [|u' [|]]; try discriminate. injection VI as VI; subst u'. subst ls.
    exists (VStr b u), [1; 1], d. split; [exact A5|]. split; [constructor|]. split; [exact A1|]. split; [exact CS|].
    intros i I. rewrite <- NTH by congruence. destruct SH as [SH|[SH _]].
    + destruct t; discriminate SH.
    + apply prod_ones_iff in SH. rewrite (nth_ones _ i SH). destruct i as [|[|i]]; try reflexivity. destruct i; reflexivity.
  - destruct VI as [_ [VI NK]]. destruct ts as [|u' [|]]; try discriminate. injection VI as <-. cbn in NK. congruence.
  - destruct VI as [VS [VD VK]]. exists (VArr ar), s', d. split; [exact A5|].
    assert (NTH' : forall i, i < String.length alt -> nth i s' 1 = nth i s 1).
    { intros i I. rewrite <- NTH by exact I. destruct SH as [->|[SH ->]]; [reflexivity|]. apply prod_ones_iff in SH.
      rewrite (nth_ones _ i SH). apply nth_ones. intros m M. apply SH. destruct (match t with [] => [1] | _ => t end); [destruct M|right; exact M]. }
    split; [|split; [exact A1|split; [exact CS|intros i I; apply NTH'; congruence]]].
    assert (NE := NA ar eq_refl). destruct s' as [|n rest]; [congruence|]. constructor.
    + congruence.
    + destruct HD as [n0 [rest0 [HS HD]]]. destruct SH as [SH|[SH SH2]].
      * assert (TT : n = n0 /\ (prod rest0 = 1 -> prod rest = 1)).
        { subst s. assert (LT := A7). assert (SL : String.length alt > 0).
          { destruct (TD alt A2) as [NE0 _]. destruct alt; [congruence|]. cbn. lia. }
          split; [exact (NTH' 0 SL)|]. intro P. apply prod_ones_iff in P. apply prod_ones_iff. intros m M.
          destruct (In_nth _ _ 1 M) as [i [I1 I2]].
          assert (LR : S i < String.length alt).
          { destruct t as [|t0 t]; injection SH as _ SH; subst rest; [cbn in I1; lia|]. cbn in LT. lia. }
          assert (Z := NTH' (S i) LR). cbn [nth] in Z. rewrite I2 in Z. rewrite Z. apply nth_ones. exact P. }
        destruct TT as [-> TT]. destruct HD; auto.
      * right. apply prod_ones_iff in SH. apply prod_ones_iff. intros m M. apply SH.
        destruct (match t with [] => [1] | _ => t end) as [|z zs]; [discriminate SH2|]. cbn [tl] in SH2. subst zs. right. right. exact M.
    + rewrite <- VD. destruct ts; [congruence|discriminate].
    + rewrite <- VD, LS. clear. induction ts as [|t ts IH]; constructor; [|exact IH]. exists t. auto.
  - destruct VI.
Qed.

Lemma string_var_type k e v : is_variable cv o k e v -> string_variable cv o k -> e_type e = "string".
Proof.
  intros IV [_ [e0 [d [D [ED HS]]]]]. assert (e0 = e) by (destruct IV; congruence). subst e0.
  destruct (variable_type k e v IV) as [TY|TY]; [|exact TY].
  destruct (st_dims _ _ ST k e v IV) as [d' [ED' [TD _]]]. rewrite ED in ED'. injection ED' as <-.
  exfalso. assert (M : In (main_alternative d) (alternatives d)).
  { destruct (var_again k e v IV) as [d0 [alt [s [t [w [s' [e' [A1 [A2 _]]]]]]]]]. assert (d0 = d) by congruence. subst d0. exact (main_in d alt A2). }
  destruct (TD _ M) as [_ [_ [_ [TD1 _]]]]. rewrite (TD1 TY) in HS. discriminate.
Qed.

Lemma string_var_is k : string_variable cv o k -> exists e v s ls, is_variable cv o k e v /\ e_type e = "string" /\ strings v s ls.
Proof.
  intro SV. assert (SV' := SV). destruct SV' as [IK _]. apply variables_variable in IK. destruct IK as [e [v IV]].
  destruct (proj2 (proj2 (va_sized _ _ _ _ _ _ VO)) k SV) as [v' [s [ls [G S]]]]. exists e, v, s, ls.
  split; [exact IV|]. split; [eapply string_var_type; eassumption|]. assert (v' = v) by (destruct IV as [_ [_ G']]; congruence). subst v'. exact S.
Qed.

Lemma strings_len_det v s ls s' ls' ts : elements v = map EStr ts -> strings v s ls -> strings v s' ls' -> ls' = ls.
Proof. intros EL H1 H2. rewrite (strings_lens _ _ _ _ H1 EL), (strings_lens _ _ _ _ H2 EL). reflexivity. Qed.

Lemma strings_both k : string_variable cv o k -> exists v s w s' ls, dget k (pub o) = Some v /\ dget k (pub q) = Some w
  /\ strings v s ls /\ strings w s' ls
  /\ (forall s1 l1, strings v s1 l1 -> l1 = ls) /\ (forall s1 l1, strings w s1 l1 -> l1 = ls).
Proof.
  intro SV. destruct (string_var_is k SV) as [e [v [s [ls [IV [TY S]]]]]].
  destruct (strings_q k e v s ls IV TY S) as [w [s' [d [G [S' _]]]]].
  destruct (var_again k e v IV) as [d' [alt [s1 [t [w1 [s2 [e' [A1 [A2 [A3 [A4 [A5 [A6 [A7 [A8 [A9 [A10 [A11 A12]]]]]]]]]]]]]]]]]].
  destruct A12 as [[X _]|[_ [ts [NT [EL [VI _]]]]]]; [congruence|]. assert (w1 = w) by congruence. subst w1.
  assert (EW : elements w = map EStr ts).
  { destruct w; cbn [value_is elements] in *; [destruct VI; congruence|destruct VI as [_ [VI _]]; congruence|destruct VI as [_ [VI _]]; congruence|destruct VI]. }
  exists v, s, w, s', ls. split; [apply IV|]. split; [exact G|]. split; [exact S|]. split; [exact S'|].
  split; intros s3 l3 H3; [exact (strings_len_det _ _ _ _ _ _ EL S H3)|exact (strings_len_det _ _ _ _ _ _ EW S' H3)].
Qed.

Lemma longest_q n : longest cv q n <-> longest cv o n.
Proof.
  unfold longest. split; intros [H1 H2]; split.
  - intros k v s ls l SV G S I. destruct (strings_both k SV) as [v0 [s0 [w [s' [ls0 [B1 [B2 [B3 [B4 [B5 B6]]]]]]]]]].
    assert (v0 = v) by congruence. subst v0. rewrite (B5 _ _ S) in I. apply (H1 k w s' ls0 l); auto. apply string_var_q. exact SV.
  - destruct H2 as [H2|[k [w [s [ls [SV [G [S I]]]]]]]]; [auto|]. right. apply string_var_q in SV.
    destruct (strings_both k SV) as [v0 [s0 [w0 [s' [ls0 [B1 [B2 [B3 [B4 [B5 B6]]]]]]]]]].
    assert (w0 = w) by congruence. subst w0. rewrite (B6 _ _ S) in I. eauto 10.
  - intros k w s ls l SV G S I. apply string_var_q in SV. destruct (strings_both k SV) as [v0 [s0 [w0 [s' [ls0 [B1 [B2 [B3 [B4 [B5 B6]]]]]]]]]].
    assert (w0 = w) by congruence. subst w0. rewrite (B6 _ _ S) in I. apply (H1 k v0 s0 ls0 l); auto.
  - destruct H2 as [H2|[k [v [s [ls [SV [G [S I]]]]]]]]; [auto|]. right.
    destruct (strings_both k SV) as [v0 [s0 [w0 [s' [ls0 [B1 [B2 [B3 [B4 [B5 B6]]]]]]]]]].
    assert (v0 = v) by congruence. subst v0. rewrite (B5 _ _ S) in I. apply string_var_q in SV. exists k, w0, s', ls0. auto.
Qed.

Lemma str1_inj x y : str1 x = str1 y -> x = y.
Proof. unfold str1. intro H. injection H as H. exact H. Qed.

Lemma size_q x n : size cv q x n <-> size cv o x n.
Proof.
  unfold size at 1. rewrite longest_q. split.
  - intros [H|[H|[H|[y [l [r [X1 [X2 [X3 X4]]]]]]]]]; [left; exact H|right; left; exact H|right; right; left; exact H|].
    destruct (all_states_q y (Some n)) as [m [M1 [M2 _]]]; [rewrite X3; apply in_or_app; right; left; reflexivity|].
    injection M1 as <-. subst x. exact M2.
  - intro H. assert (H0 := H). destruct H as [H|[H|[H|[y [l [r [X1 [X2 [X3 X4]]]]]]]]]; [left; exact H|right; left; exact H|right; right; left; exact H|].
    right. right. right. assert (I : In y (map fst (all_states cv q))).
    { apply all_states_o. rewrite X3, map_app. apply in_or_app. right. left. reflexivity. }
    destruct (last_split _ _ I) as [l1 [n1 [r1 [L1 L2]]]]. destruct (all_states_q y n1) as [m [M1 [M2 _]]].
    { rewrite L1. apply in_or_app. right. left. reflexivity. }
    subst x n1. assert (m = n) by (eapply size_unique; eassumption). subst m. exists y, l1, r1. auto.
Qed.

Lemma extent_q x n : extent cv q x n <-> extent cv o x n.
Proof. unfold extent. destruct (Ascii.eqb x "S"); [tauto|apply size_q]. Qed.

Lemma sized_q : sized cv q.
Proof.
  split; [|split].
  - intros k I. apply variables_q in I. destruct I as [e [v IV]]. apply contained_q. apply dget_Some_In. exists v. apply IV.
  - intros x n I. destruct (all_states_q x n I) as [m [-> _]]. discriminate.
  - intros k SV. apply string_var_q in SV. destruct (strings_both k SV) as [v0 [s0 [w0 [s' [ls0 [B1 [B2 [B3 [B4 _]]]]]]]]]. eauto.
Qed.

Lemma nth_shape4 t i : 2 <= List.length t -> nth i (shape4 t) 1 = nth i t 1.
Proof.
  intro L. destruct t as [|x [|y [|z [|u r]]]]; cbn in L; try lia; try reflexivity;
    destruct i as [|[|[|[|i]]]]; try reflexivity; destruct i; reflexivity.
Qed.
Lemma ones_shape4 t : ones t -> ones (shape4 t).
Proof. intro H. apply prod_ones_iff. rewrite shape4_prod. apply prod_ones_iff. exact H. Qed.
Lemma ones_tl t : ones t -> ones (tl t).
Proof. intros H m I. apply H. destruct t; [destruct I|right; exact I]. Qed.

Lemma shape_q k : In k (variables cv q) -> shape_ok cv q k.
Proof.
  intro IK. apply variables_q in IK. destruct IK as [e [v IV]].
  assert (IK : In k (variables cv o)) by (apply variables_variable; eauto).
  destruct (va_shapes _ _ _ _ _ _ VO k IK) as [e0 [d [v0 [s [pre [alt [post [B1 [B2 [B3 [B4 [B5 [B6 B7]]]]]]]]]]]]].
  assert (e0 = e) by (destruct IV; congruence). subst e0. assert (v0 = v) by (destruct IV as [_ [_ G']]; congruence). subst v0.
  destruct (var_again k e v IV) as [d' [alt' [s1 [t [w [s' [e' [A1 [A2 [A3 [A4 [A5 [A6 [A7 [A8 [A9 [A10 [A11 A12]]]]]]]]]]]]]]]]]].
  assert (d' = d) by congruence. subst d'. assert (s1 = s) by (eapply compared_det; eassumption). subst s1.
  destruct (st_dims _ _ ST k e v IV) as [d' [ED [TD _]]]. rewrite A1 in ED. injection ED as <-.
  assert (IA : In alt (alternatives d)) by (rewrite B5; apply in_or_app; right; left; reflexivity).
  assert (LA : String.length alt = String.length alt').
  { destruct (TD alt IA) as [_ [L1 _]]. destruct (TD _ A2) as [_ [L2 _]]. congruence. }
  assert (X : exists s2, compared_shape (e_type e) d w s2 /\ forall i, i < String.length alt -> nth i s2 1 = nth i s 1).
  { destruct A12 as [[TY [fs [NF [VI [SH _]]]]]|[TY _]].
    - rewrite TY in A7, A3. cbn [String.eqb Ascii.eqb Bool.eqb] in A7. assert (SW := value_shape _ _ _ VI).
      destruct (TD alt IA) as [_ [LH _]].
      rewrite TY. destruct (le_lt_dec (String.length (hd "" (split "," d))) 1) as [L|L].
      + exists [prod (shape_of w)]. split; [apply cs_single; [discriminate|discriminate|exact L]|].
        intros i I. assert (i = 0) by lia. subst i. cbn [nth]. rewrite SW.
        destruct t as [|m [|]]; cbn in A7; try lia. rewrite <- (A8 0) by (cbn; lia). cbn [nth].
        destruct SH as [->|[P ->]]; cbn in *; lia.
      + exists (shape4 (shape_of w)). split; [apply cs_multi; [discriminate|discriminate|exact L]|].
        intros i I. rewrite SW, <- (A8 i) by lia. destruct SH as [->|[P ->]]; [apply nth_shape4; lia|].
        apply prod_ones_iff in P. rewrite (nth_ones t i P). apply nth_ones. apply ones_shape4. apply ones_tl. exact P.
    - rewrite TY in *. destruct A3 as [s ls _ SV|T1 T2 _|T1 T2 _]; try congruence.
      destruct (strings_q k e v s ls IV TY SV) as [w' [s2 [d2 [G2 [S2 [ED2 [_ N2]]]]]]]. assert (w' = w) by congruence. subst w'.
      exists s2. split; [econstructor; [auto|exact S2]|]. intros i I. apply N2. assert (d2 = d) by congruence. subst d2.
      destruct (TD alt IA) as [_ [L1 _]]. destruct (TD _ (main_in d alt IA)) as [_ [L2 _]]. congruence. }
  destruct X as [s2 [CS NT]]. exists e', d, w, s2, pre, alt, post. rewrite A10.
  split; [exact A9|]. split; [exact A11|]. split; [exact A5|]. split; [exact CS|]. split; [exact B5|]. split.
  - intros b IB x HX. destruct (B6 b IB x HX) as [n N]. exists n. apply extent_q. exact N.
  - intros i x XI. apply extent_q. rewrite NT; [apply B7; exact XI|]. rewrite <- chars_length. apply nth_error_Some. congruence.
Qed.

Lemma type_q k w : dget k (pub q) = Some w -> exists e, declared cv q k = Some e /\ has_type (e_type e) w.
Proof.
  intro G. assert (C : contained o k) by (apply contained_q; apply dget_Some_In; eauto).
  destruct (kinds k C) as [AT|[e [v IV]]].
  - destruct (declared_attr k AT) as [e [D [T _]]]. exists e. split; [exact D|]. left. split; [exact T|].
    destruct (se_attrs _ _ _ q_same k AT) as [b [t [_ G']]]. exists false, t. congruence.
  - destruct (var_again k e v IV) as [d' [alt' [s1 [t [w0 [s' [e' [A1 [A2 [A3 [A4 [A5 [A6 [A7 [A8 [A9 [A10 [A11 A12]]]]]]]]]]]]]]]]]].
    assert (w0 = w) by congruence. subst w0. exists e'. split; [exact A9|]. rewrite A10. right.
    destruct A12 as [[TY [fs [NF [VI [_ [KP KK]]]]]]|[TY [ts [NF [_ [VI _]]]]]].
    + left. split; [exact TY|]. destruct w as [b u|y|ar|l]; cbn [value_is] in VI.
      * destruct VI as [_ ->]. inversion KP as [|? ? ? ? [[? [_ X]]|[_ X]]]; discriminate X.
      * destruct VI as [_ [-> NK]]. inversion KP as [|x0 ? l0 ? [[g [_ X]]|[X0 X]] ? EV]; subst y; [eauto|]. exfalso.
        destruct IV as [D0 [_ G0]]. destruct (vd_type _ _ _ _ _ _ V k v G0) as [e0 [D' HT]]. rewrite D0 in D'. injection D' as <-. rewrite TY in HT.
        assert (Q0 := sound_missing v HT (st_sound _ _ ST k v G0)). rewrite <- EV, <- A6 in Q0. cbn [masked] in Q0.
        assert (false = true) by (apply Q0; left; exact X0). discriminate.
      * right. right. exists ar. split; [reflexivity|]. right. apply KK. reflexivity.
      * destruct VI.
    + right. split; [exact TY|]. destruct ts as [|x ts]; [congruence|]. destruct w as [b u|y|ar|l]; cbn [value_is] in VI.
      * eauto.
      * destruct VI as [_ [VI NK]]. injection VI as VI _. subst y. cbn in NK. congruence.
      * destruct VI as [_ [VD VK]]. right. exists ar. split; [reflexivity|]. destruct (VK (EStr x)) as [VX|[_ X]]; [left; reflexivity|symmetry; exact VX|discriminate X].
      * destruct VI.
Qed.

(** the declarations of the entries of both objects have the same types *)
Lemma same_types k : contained o k -> exists e e', declared cv o k = Some e /\ declared cv q k = Some e' /\ e_type e' = e_type e.
Proof.
  intro C. destruct (kinds k C) as [AT|[e [v IV]]].
  - destruct (declared_attr k AT) as [e' [D' [T' _]]]. destruct AT as [_ [e [D T]]]. exists e, e'. split; [exact D|]. split; [exact D'|congruence].
  - destruct (var_again k e v IV) as [d' [alt' [s1 [t [w0 [s' [e' [A1 [A2 [A3 [A4 [A5 [A6 [A7 [A8 [A9 [A10 _]]]]]]]]]]]]]]]]].
    exists e, e'. split; [apply IV|]. auto.
Qed.

Lemma declared_kept k : declared cv o k <> None -> declared cv q k <> None.
Proof.
  intro D. destruct (dget k cv) as [e|] eqn:G; [rewrite declared_q, G; discriminate|].
  assert (C : contained o k).
  { unfold declared in D. rewrite G in D. destruct (dget k (own_custom cv o)) as [e|] eqn:GC; [|congruence]. apply (ra_custom _ _ _ RA k e GC). }
  destruct (same_types k C) as [e [e' [_ [D' _]]]]. congruence.
Qed.

Lemma names_q k e : contained q k -> declared cv q k = Some e -> name_ok (declared cv q) k (e_type e).
Proof.
  intros C D. apply contained_q in C. destruct (same_types k C) as [e0 [e' [D0 [D' T]]]].
  assert (e' = e) by congruence. subst e'. rewrite T. destruct (va_names _ _ _ _ _ _ VO k e0 C D0) as [N1 N2]. split; [|exact N2].
  intro TA. destruct (N1 TA) as [var [b [K1 [K2 [K3|K3]]]]]; exists var, b; (split; [exact K1|]); (split; [exact K2|]); [left|right; exact K3].
  apply declared_kept. exact K3.
Qed.

Lemma mandatory_q k e : declared cv q k = Some e -> is_mandatory (e_flags e) = true -> contained q k.
Proof.
  intros D M. apply contained_q. rewrite declared_q in D. destruct (dget k cv) as [e0|] eqn:G.
  - injection D as ->. apply (va_mandatory _ _ _ _ _ _ VO k e); [|exact M]. unfold declared. rewrite G. reflexivity.
  - apply its_names. destruct (in_dec string_dec k (map i_name its)) as [IN|NI]; [exact IN|].
    destruct RD as [_ [_ [R _]]]. destruct (R k NI) as [_ R2]. congruence.
Qed.

Lemma attr_value_q key ref : is_attribute cv o key -> allowed_value E o key ref -> allowed_value E q key ref.
Proof.
  intros AT [b [s [G A]]]. destruct (se_attrs _ _ _ q_same key AT) as [b' [t [G' GQ]]].
  rewrite G in G'. injection G' as <- <-. exists false, s. auto.
Qed.

Lemma rules_q k r : In (k, r) (rules E) -> rule_ok E cv q (python_name k) r.
Proof.
  intros I w G. assert (C : contained o (python_name k)) by (apply contained_q; apply dget_Some_In; eauto).
  assert (C' := C). apply dget_Some_In in C'. destruct C' as [v GO].
  destruct (va_rules _ _ _ _ _ _ VO k r I v GO) as [R1 [R2 R3]]. split; [|split].
  - intros ref RV. apply attr_value_q; [|apply R1; exact RV]. apply (ra_rules _ _ _ RA k r I C). left. congruence.
  - intros g IG. apply contained_q. apply R2. exact IG.
  - intros sp RS. assert (AT : is_attribute cv o (python_name k)) by (apply (ra_rules _ _ _ RA k r I C); right; congruence).
    destruct (se_attrs _ _ _ q_same _ AT) as [b' [t [G' GQ]]]. rewrite G in GQ. injection GQ as ->.
    destruct (R3 sp RS) as [_ R4]. split; [discriminate|]. intros b s items kd X DG IK. injection X as <- <-.
    rewrite G' in GO. injection GO as <-. specialize (R4 b' t items kd eq_refl DG IK). unfold dep_ok in *.
    destruct kd as [key dd]. cbn [snd fst] in *. destruct dd as [l|[ref|]].
    + intros x ns u IX. destruct (R4 x ns u IX) as [n [N1 N2]]. exists n. split; [apply size_q; exact N1|exact N2].
    + apply attr_value_q; [|exact R4]. destruct R4 as [b [s [GK _]]].
      apply (ra_deps _ _ _ RA k r sp (dep_case t) items key ref I RS); [apply dget_In; exact DG|exact IK|apply dget_Some_In; eauto].
    + apply contained_q. exact R4.
Qed.

Lemma clash_q : no_clash E c vv cv q.
Proof.
  destruct (custom q) as [cq|] eqn:CQ; [right|left; exact CQ].
  destruct RD as [_ [_ [_ RN]]]. destruct RN as [i [I1 I2]]; [congruence|].
  assert (CI1 : contained o (i_name i)) by (apply its_names; apply in_map; exact I1).
  rewrite is_new_iff in I2 by exact CI1. destruct (dget (i_name i) cv) eqn:GI; [discriminate|].
  destruct (contained_declared _ CI1) as [e [v [D _]]]. unfold declared in D. rewrite GI in D.
  destruct (va_custom _ _ _ _ _ _ VO) as [NO|[[b NB] [OK CL]]].
  { unfold own_custom in D. rewrite NO in D. discriminate D. }
  assert (GA : is_attribute cv o "GLOBAL_SOFAConventionsVersion").
  { apply (fa_global _ _ FA "SOFAConventionsVersion"). apply dget_Some_In. eauto. }
  split; [|split; [exact OK|]].
  - destruct (se_attrs _ _ _ q_same _ GA) as [b' [t [G' GQ]]]. exists false. rewrite NB in G'. injection G' as _ <-. exact GQ.
  - intros k n IK IN. apply CL; [|exact IN]. apply dget_Some_In in IK. destruct IK as [e' GK]. rewrite own_custom_dget in GK.
    destruct (dget k cv) eqn:GC; [discriminate|].
    assert (C : contained o k).
    { apply its_names. destruct (in_dec string_dec k (map i_name its)) as [IN'|NI]; [exact IN'|].
      destruct RD as [_ [_ [R _]]]. destruct (R k NI) as [_ R2]. congruence. }
    destruct (contained_declared _ C) as [e2 [v2 [D2 _]]]. unfold declared in D2. rewrite GC in D2. apply dget_Some_In. eauto.
Qed.

Lemma valid_q : valid_for E VRead q c vv cv.
Proof.
  destruct (va_name _ _ _ _ _ _ VO) as [b N]. destruct (va_version _ _ _ _ _ _ VO) as [w [W1 W2]].
  assert (GN : is_attribute cv o "GLOBAL_SOFAConventions").
  { apply (fa_global _ _ FA "SOFAConventions"). apply dget_Some_In. eauto. }
  assert (GA : is_attribute cv o "GLOBAL_SOFAConventionsVersion").
  { apply (fa_global _ _ FA "SOFAConventionsVersion"). apply dget_Some_In. eauto. }
  constructor.
  - destruct (se_attrs _ _ _ q_same _ GN) as [b' [t [G' GQ]]]. exists false. rewrite N in G'. injection G' as _ <-. exact GQ.
  - destruct (se_attrs _ _ _ q_same _ GA) as [b' [t [G' GQ]]]. exists (VStr false t). split; [exact GQ|].
    rewrite W1 in G'. injection G' as ->. exact W2.
  - apply (va_file _ _ _ _ _ _ VO).
  - apply mandatory_q.
  - apply type_q.
  - apply names_q.
  - apply clash_q.
  - apply sized_q.
  - apply shape_q.
  - intros k r I. apply rules_q. exact I.
  - discriminate.
  - discriminate.
Qed.

Lemma conv_q k : contained o k -> dget k (conv q) = declared cv q k.
Proof.
  intro C. rewrite declared_q. assert (C' := C). rewrite <- its_names in C'. apply in_map_iff in C'. destruct C' as [i [N I]].
  assert (X := is_new_iff k C). destruct RD as [R1 [R2 _]]. destruct (dget k cv) as [e|] eqn:G.
  - destruct (R2 k X) as [-> _]. rewrite CV. exact G.
  - subst k. destruct (R1 i I X) as [-> ->]. reflexivity.
Qed.
(** ** The object that is read can be stored again *)
Lemma attribute_q k : is_attribute cv q k <-> is_attribute cv o k.
Proof.
  split.
  - intros [C [e [D T]]]. apply contained_q in C. destruct (same_types k C) as [e0 [e' [D0 [D' T']]]].
    split; [exact C|]. exists e0. split; [exact D0|]. congruence.
  - intro AT. destruct (declared_attr k AT) as [e [D [T _]]]. split; [apply contained_q; apply AT|eauto].
Qed.

Lemma variable_q k e' w : is_variable cv q k e' w -> exists e v, is_variable cv o k e v /\ e_type e' = e_type e /\ e_dims e' = e_dims e.
Proof.
  intros [D [T G]]. assert (C : contained o k) by (apply contained_q; apply dget_Some_In; eauto).
  destruct (kinds k C) as [AT|[e [v IV]]].
  - destruct (declared_attr k AT) as [e0 [D0 [T0 _]]]. congruence.
  - exists e, v. split; [exact IV|]. destruct (var_again k e v IV) as [d [alt [s [t [w0 [s' [e0 [A1 [_ [_ [_ [_ [_ [_ [_ [A9 [A10 [A11 _]]]]]]]]]]]]]]]]]].
    assert (e0 = e') by congruence. subst e0. split; congruence.
Qed.
Lemma variable_o k e v : is_variable cv o k e v -> exists e' w, is_variable cv q k e' w.
Proof.
  intro IV. destruct (var_again k e v IV) as [d [alt [s [t [w [s' [e' [_ [_ [_ [_ [A5 [_ [_ [_ [A9 [A10 _]]]]]]]]]]]]]]]]].
  exists e', w. split; [exact A9|]. split; [rewrite A10; apply IV|exact A5].
Qed.
Lemma attribute_of_q j r k : attribute_of cv q j r k <-> attribute_of cv o j r k.
Proof.
  split; intros [[e [v IV]] KE]; (split; [|exact KE]).
  - destruct (variable_q j e v IV) as [e0 [v0 [IV0 _]]]. eauto.
  - apply (variable_o j e v IV).
Qed.

(** the elements and the shape of a variable that is read *)
Lemma values_q k e v w : is_variable cv o k e v -> dget k (pub q) = Some w ->
  masked w = masked v /\ value_is w (shape_of w) (elements w) /\ sh_squeeze (shape_of w) = sh_squeeze (shape_of v)
  /\ List.length (elements w) = prod (shape_of w)
  /\ ((e_type e = "double" /\ Forall2 kept_elt (elements v) (elements w) /\ (forall ar, w = VArr ar -> a_kind ar = KF))
      \/ (e_type e = "string" /\ elements w = elements v)).
Proof.
  intros IV G. assert (L := var_elements E o o' cv a ds V ST k e v IV).
  assert (X : exists s d, value_is w s d /\ masked w = masked v /\ sh_squeeze s = sh_squeeze (shape_of v) /\ List.length d = List.length (elements v)
    /\ ((e_type e = "double" /\ Forall2 kept_elt (elements v) d /\ (forall ar, w = VArr ar -> a_kind ar = KF)) \/ (e_type e = "string" /\ d = elements v))).
  { destruct (variable_type k e v IV) as [TY|TY].
    - destruct (se_numbers _ _ _ q_same k e v IV TY) as [w' [s [d [W1 [W2 [W3 [W4 [W5 W6]]]]]]]]. assert (w' = w) by congruence. subst w'.
      exists s, d. split; [exact W2|]. split; [exact W3|]. split; [exact W5|].
      split; [clear - W4; induction W4; cbn; congruence|]. left. auto.
    - destruct (se_texts _ _ _ q_same k e v IV TY) as [w' [s [W1 [W2 [W3 W5]]]]]. assert (w' = w) by congruence. subst w'.
      exists s, (elements v). split; [exact W2|]. split; [rewrite (texts_unmasked k e v IV TY); exact W3|].
      split; [exact W5|]. split; [reflexivity|]. right. auto. }
  destruct X as [s [d [VI [M [SQ [LD C]]]]]].
  assert (SW := value_shape _ _ _ VI). assert (EW : elements w = d).
  { destruct w; cbn [value_is elements] in *; [destruct VI; congruence|destruct VI as [_ [VI _]]; congruence|destruct VI as [_ [VI _]]; congruence|destruct VI]. }
  rewrite EW, SW. split; [exact M|]. split; [exact VI|]. split; [exact SQ|]. split; [|exact C].
  rewrite LD, L, <- (prod_squeeze s), SQ, prod_squeeze. reflexivity.
Qed.

Lemma sound_q k w : dget k (pub q) = Some w -> sound_value w.
Proof.
  intro G. assert (C : contained o k) by (apply contained_q; apply dget_Some_In; eauto).
  destruct (kinds k C) as [AT|[e [v IV]]].
  - destruct (se_attrs _ _ _ q_same k AT) as [b [t [_ G']]]. rewrite G in G'. injection G' as ->. left. exact I.
  - destruct (values_q k e v w IV G) as [M [VI [_ [L C12]]]]. destruct (masked v) eqn:MV.
    + right. destruct w as [b t|x|ar|l]; try discriminate M. cbn [masked elements shape_of value_is] in *.
      exists ar. split; [reflexivity|]. split; [apply Nat.eqb_eq; exact L|]. split; [exact M|].
      destruct C12 as [[TY [KP KK]]|[TY _]].
      2:{ rewrite (texts_unmasked k e v IV TY) in MV. discriminate MV. }
      split; [apply KK; reflexivity|].
      assert (HT : has_type "double" v).
      { destruct IV as [D0 [_ G0]]. destruct (vd_type _ _ _ _ _ _ V k v G0) as [e' [D' HT]]. rewrite D0 in D'. injection D' as <-. rewrite TY in HT. exact HT. }
      assert (IO := proj2 (sound_missing v HT (st_sound _ _ ST k v (proj2 (proj2 IV)))) MV). clear - IO KP. split.
      * induction KP as [|x y l d K _ IH]; [destruct IO|]. destruct IO as [->|IO]; [|right; apply IH; exact IO].
        left. destruct K as [[f [K _]]|[_ K]]; [inversion K|exact K].
      * intros y IY. clear IO. induction KP as [|x y' l d K _ IH]; [destruct IY|]. destruct IY as [->|IY]; [|apply IH; exact IY].
        destruct K as [[f [_ K]]|[_ K]]; eauto.
    + left. clear C12. destruct w as [b t|x|ar|l]; cbn [value_is regular_value masked elements shape_of] in *.
      * exact I.
      * apply VI.
      * split; [apply Nat.eqb_eq; exact L|]. split; [exact M|]. destruct VI as [_ [_ VK]]. intros x IX.
        destruct (VK x IX) as [VX|[VX _]]; [exact VX|congruence].
      * destruct VI.
Qed.

Lemma storable_q : storable cv q.
Proof.
  constructor.
  - exact sound_q.
  - intros r C. apply (st_gattr _ _ ST). apply contained_q. exact C.
  - intros k e w r IV C. apply contained_q in C. destruct (variable_q k e w IV) as [e0 [v0 [IV0 _]]].
    apply (st_vattr _ _ ST k e0 v0 r IV0 C).
  - intros k e w IV. destruct (variable_q k e w IV) as [e0 [v0 [IV0 _]]]. apply (st_name _ _ ST k e0 v0 IV0).
  - intros k e w IV. destruct (variable_q k e w IV) as [e0 [v0 [IV0 [T0 D0]]]].
    destruct (st_dims _ _ ST k e0 v0 IV0) as [d [ED [TD _]]]. exists d. rewrite D0, T0. split; [exact ED|]. split; [exact TD|].
    destruct (var_again k e0 v0 IV0) as [d1 [alt [s [t [w1 [s' [e1 [A1 [A2 [A3 [A4 [A5 [A6 [A7 [A8 [A9 [A10 [A11 A12]]]]]]]]]]]]]]]]]].
    assert (d1 = d) by congruence. subst d1. assert (w1 = w) by (destruct IV as [_ [_ G]]; congruence). subst w1.
    assert (LA : String.length alt = String.length (main_alternative d)).
    { destruct (TD alt A2) as [_ [L1 _]]. destruct (TD _ (main_in d alt A2)) as [_ [L2 _]]. congruence. }
    assert (LN : 1 <= String.length alt) by (destruct (TD alt A2) as [NE _]; destruct alt; [congruence|cbn; lia]).
    left. assert (LS : List.length (shape_of w) <= String.length (main_alternative d)).
    { destruct A12 as [[TY [fs [_ [VI [SH _]]]]]|[TY [ts [_ [_ [VI [SH _]]]]]]]; rewrite (value_shape _ _ _ VI).
      - rewrite TY in A7. cbn [String.eqb Ascii.eqb Bool.eqb] in A7. destruct SH as [->|[_ ->]]; [lia|]. destruct t; cbn in *; lia.
      - rewrite TY in A7. cbn [String.eqb Ascii.eqb Bool.eqb] in A7.
        destruct t as [|m t]; destruct SH as [->|[_ ->]]; cbn [List.length tl] in *; lia. }
    rewrite skipn_all2 by exact LS. intros m [].
  - intros k e w IV TY. destruct (variable_q k e w IV) as [e0 [v0 [IV0 [T0 D0]]]].
    destruct (values_q k e0 v0 w IV0 (proj2 (proj2 IV))) as [_ [_ [SQ _]]].
    rewrite <- (prod_squeeze (shape_of w)), SQ, prod_squeeze. apply (st_numbers _ _ ST k e0 v0 IV0). congruence.
  - intros k e w IV TY. destruct (variable_q k e w IV) as [e0 [v0 [IV0 [T0 D0]]]].
    assert (T1 : e_type e0 = "string") by congruence.
    destruct (values_q k e0 v0 w IV0 (proj2 (proj2 IV))) as [_ [_ [SQ [_ [[X _]|[_ EL]]]]]]; [congruence|].
    destruct (st_texts _ _ ST k e0 v0 IV0 T1) as [AV SZ]. split.
    + assert (AE : forall u, In (EStr u) (elements w) -> ascii_text u).
      { rewrite EL. intros u IU. destruct v0 as [b t|x|ar|l]; cbn [elements] in IU.
        - destruct IU as [IU|[]]. injection IU as <-. exact AV.
        - destruct IU as [IU|[]]. subst x. destruct IV0 as [_ [_ G0]]. destruct (st_sound _ _ ST k _ G0) as [X|[ar [X _]]]; [cbn in X; congruence|discriminate X].
        - apply AV. exact IU.
        - destruct IU. }
      destruct w as [b t|x|ar|l]; cbn [ascii_value elements] in *; [apply AE; left; reflexivity|exact I|exact AE|exact I].
    + intro Z. apply size_q in Z. rewrite <- (prod_squeeze (shape_of w)), SQ, prod_squeeze. apply SZ. exact Z.
Qed.

Lemma faithful_q : faithful cv q.
Proof.
  constructor.
  - intros k C. apply (fa_clean _ _ FA). apply contained_q. exact C.
  - intros k AT. apply attribute_q in AT. destruct (fa_home _ _ FA k AT) as [H|[j [r H]]]; [left; exact H|right].
    exists j, r. apply attribute_of_q. exact H.
  - intros j r k AO C. apply attribute_of_q in AO. apply contained_q in C. destruct (fa_once _ _ FA j r k AO C) as [H1 [H2 [H3 H4]]].
    split; [apply attribute_q; exact H1|]. split; [exact H2|]. split; [exact H3|]. intros j' r' AO'. apply attribute_of_q in AO'. eauto.
  - intros r C. apply attribute_q. apply (fa_global _ _ FA). apply contained_q. exact C.
  - intros k b t AT G. apply attribute_q in AT. destruct (se_attrs _ _ _ q_same k AT) as [b' [t' [G' GQ]]].
    rewrite G in GQ. injection GQ as _ ->. apply (fa_attrs _ _ FA k b' t' AT G').
  - intros k e w t IV IT. destruct (variable_q k e w IV) as [e0 [v0 [IV0 [T0 D0]]]].
    destruct (values_q k e0 v0 w IV0 (proj2 (proj2 IV))) as [_ [_ [_ [_ [[_ [KP _]]|[_ EL]]]]]].
    + destruct (kept_from _ _ _ KP IT) as [y [_ [[f0 [_ X]]|[_ X]]]]; discriminate X.
    + rewrite EL in IT. apply (fa_texts _ _ FA k e0 v0 t IV0 IT).
  - intros k e w x g IV IX NX. destruct (variable_q k e w IV) as [e0 [v0 [IV0 [T0 D0]]]].
    destruct (values_q k e0 v0 w IV0 (proj2 (proj2 IV))) as [_ [_ [_ [_ [[_ [KP _]]|[_ EL]]]]]].
    + destruct (kept_from _ _ _ KP IX) as [y [Y1 [[h [Y2 ->]]|[_ ->]]]]; inversion NX; subst.
      apply (fa_numbers _ _ FA k e0 v0 y g IV0 Y1 Y2).
    + rewrite EL in IX. apply (fa_numbers _ _ FA k e0 v0 x g IV0 IX NX).
Qed.

Lemma readable_q : readable_again E cv q.
Proof.
  constructor.
  - intros k e w d alt i x IV ED IA NX LO. destruct (variable_q k e w IV) as [e0 [v0 [IV0 [T0 D0]]]].
    apply (ra_letters _ _ _ RA k e0 v0 d alt i x IV0); auto. congruence.
  - intros k e w d IV ED. destruct (variable_q k e w IV) as [e0 [v0 [IV0 [T0 D0]]]].
    apply (ra_four _ _ _ RA k e0 v0 d IV0). congruence.
  - intros k e G. rewrite own_custom_dget in G. destruct (dget k cv) as [x|] eqn:GC; [discriminate|].
    assert (C : contained o k).
    { apply its_names. destruct (in_dec string_dec k (map i_name its)) as [IN|NI]; [exact IN|].
      destruct RD as [_ [_ [R _]]]. destruct (R k NI) as [_ R2]. congruence. }
    assert (D : declared cv q k = Some e) by (rewrite declared_q, GC; exact G).
    split; [apply contained_q; exact C|]. intros d ED. destruct (kinds k C) as [AT|[e0 [v0 IV0]]].
    + destruct (declared_attr k AT) as [e1 [D1 [_ N1]]]. congruence.
    + destruct (var_again k e0 v0 IV0) as [d1 [alt [s [t [w1 [s' [e1 [A1 [_ [_ [_ [_ [_ [_ [_ [A9 [_ [A11 _]]]]]]]]]]]]]]]]]].
      assert (e1 = e) by congruence. subst e1. assert (d1 = d) by congruence. subst d1.
      assert (DO1 := proj1 IV0). unfold declared in DO1. rewrite GC in DO1. apply (ra_custom _ _ _ RA k e0 DO1). exact A1.
  - intros k e AT D. apply attribute_q in AT. destruct (declared_attr k AT) as [e1 [D1 [_ N1]]]. congruence.
  - apply (ra_created _ _ _ RA).
  - intros k C. apply (ra_method _ _ _ RA). apply contained_q. exact C.
  - intros k r I C H. apply attribute_q. apply (ra_rules _ _ _ RA k r I); [apply contained_q; exact C|exact H].
  - intros k r sp x items d ref I1 I2 I3 I4 C. apply attribute_q. apply (ra_deps _ _ _ RA k r sp x items d ref I1 I2 I3 I4). apply contained_q. exact C.
Qed.

Lemma write_again_q : (forall k e v, is_variable cv o k e v -> endswith "Units" k = false) -> valid_for E VWrite q c vv cv.
Proof.
  intro NU. assert (X := valid_q). destruct X as [X1 X2 X3 X4 X5 X6 X7 X8 X9 X10 _ _]. constructor; try assumption.
  - intros _ k w G U. assert (C : contained o k) by (apply contained_q; apply dget_Some_In; eauto).
    destruct (kinds k C) as [AT|[e [v IV]]]; [|rewrite (NU k e v IV) in U; discriminate U].
    destruct (se_attrs _ _ _ q_same k AT) as [b' [t [G' GQ]]].
    destruct (va_units _ _ _ _ _ _ VO eq_refl k _ G' U) as [b [s [EQ LS]]]. injection EQ as <- <-. exists false, t. split; [congruence|exact LS].
  - intros _. apply (va_current _ _ _ _ _ _ VO eq_refl).
Qed.
End Again.
