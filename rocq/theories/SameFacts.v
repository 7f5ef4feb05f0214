(** The data of an object after writing and reading. *)
From Verif Require Import Base BaseFacts PyStr PyNum NdArray Sofa Verify Utils StrFacts SpecAttr SpecInit SpecVerify
  SpecEquals Io SpecIo SpecStore CoreFacts ValidFacts ShapeFacts InitFacts VerifyFacts DimFacts EqualsFacts WriteFacts ReadFacts IoFacts RoundFacts.
From Coq Require Import Lia.
Open Scope string_scope.
Open Scope list_scope.
Open Scope nat_scope.

Lemma NoDup_app_intro {A} (l m : list A) : NoDup l -> NoDup m -> (forall x, In x l -> ~ In x m) -> NoDup (l ++ m).
Proof.
  induction l as [|x l IH]; intros N M D; [exact M|]. cbn. inversion N; subst. constructor.
  - intro I. apply in_app_or in I. destruct I as [I|I]; [contradiction|]. apply (D x (or_introl eq_refl) I).
  - apply IH; auto. intros y I. apply D. right. exact I.
Qed.

Lemma NoDup_flat_map {A B} (g : A -> list B) l : NoDup l -> (forall x, In x l -> NoDup (g x)) ->
  (forall x y b, In x l -> In y l -> In b (g x) -> In b (g y) -> x = y) -> NoDup (flat_map g l).
Proof.
  induction l as [|x l IH]; intros N H D; [constructor|]. cbn [flat_map]. inversion N; subst.
  apply NoDup_app_intro.
  - apply H. left. reflexivity.
  - apply IH; [assumption|intros y I; apply H; right; exact I|]. intros y z b Y Z. apply D; right; assumption.
  - intros b I J. apply in_flat_map in J. destruct J as [y [Y J]].
    assert (x = y) by (apply (D x y b); auto; [left; reflexivity|right; exact Y]). subst y. contradiction.
Qed.

Section Same.
Variables (E : env) (o o' : sofa) (cv : convention) (a : dict nat) (ds : dict string) (f : ncfile).
Hypothesis V : verified E o o' cv a ds.
Hypothesis ST : storable cv o.
Hypothesis FA : faithful cv o.
Hypothesis WC : write_content E o' empty_file = (f, Ok tt).

Let P := vd_pub _ _ _ _ _ _ V.
Definition sub (k : string) : list string := filter (startswith (k +++ "_")) (dkeys (pub o)).

Lemma written : nf_attrs f = gattrs E o' /\ dims_for a (nf_dims f) /\ nf_dims f = grown a (nf_vars f)
  /\ NoDup (dkeys (nf_vars f))
  /\ Forall2 (fun k nx => fst nx = netcdf_name k /\ stored_var E o' a k (snd nx)) (entry_keys o') (nf_vars f).
Proof.
  assert (N : NoDup (dkeys (pub o'))) by (rewrite P; apply (vd_nodup _ _ _ _ _ _ V)).
  destruct (write_content_Ok E o' a f tt N (vd_api _ _ _ _ _ _ V) WC) as [W1 [W2 [W3 [W4 [W5 _]]]]]. auto.
Qed.

(** the variable [x] of the file *)
Lemma stored_held k e v x : is_variable cv o k e v -> stored_var E o' a k x ->
  exists d alt n sh b, e_dims e = Some d /\ In alt (alternatives d) /\ dget k ds = Some (upper alt)
    /\ dget "S" a = Some n /\ held k e v alt n sh (nv_data x) (nv_shape x) b
    /\ nv_dims x = map str1 (chars (upper alt)) /\ nv_attrs x = vattrs E o' k.
Proof.
  intros IV [e' [v' [d' [ds' [n' [sh' [data' [b' [t' [S1 [S2 [S3 [S4 [S5 [S6 [S7 [_ [S8 [S9 [_ [_ ->]]]]]]]]]]]]]]]]]]]]].
  destruct (variable_held E o o' cv a ds V ST k e v IV) as [d [alt [n [sh [data [b [t [H1 [H2 [H3 [H4 [H5 [H6 [H7 H8]]]]]]]]]]]]]].
  rewrite (vd_conv _ _ _ _ _ _ V), (proj1 IV) in S1. injection S1 as <-.
  rewrite P, (proj2 (proj2 IV)) in S3. injection S3 as <-.
  rewrite (vd_dims _ _ _ _ _ _ V) in S4. injection S4 as <-. rewrite H3 in S5. injection S5 as <-.
  rewrite H4 in S6. injection S6 as <-. rewrite H5 in S7. injection S7 as <- <- <-. rewrite H6 in S8. injection S8 as <-.
  exists d, alt, n, sh, b. cbn [nv_data nv_shape nv_dims nv_attrs]. auto 10.
Qed.

Lemma entry_keys_nodup : NoDup (entry_keys o').
Proof. apply NoDup_filter. rewrite P. apply (vd_nodup _ _ _ _ _ _ V). Qed.

Lemma entry_keys_iff k : In k (entry_keys o') <-> exists e v, is_variable cv o k e v.
Proof.
  split; [apply (entry_key_variable E o o' cv a ds V)|]. intros [e [v [D [T G]]]]. unfold entry_keys. rewrite P.
  apply filter_In. split; [apply dget_Some_In; eauto|]. rewrite (vd_conv _ _ _ _ _ _ V), D.
  destruct (String.eqb_spec (e_type e) "attribute"); [contradiction|reflexivity].
Qed.

Lemma vattrs_keys k : dkeys (vattrs E o' k) = map (sdrop (String.length k + 1)) (sub k).
Proof.
  unfold vattrs, sub, dkeys. rewrite map_map. cbn [fst]. rewrite P. generalize (pub o). clear. induction d as [|[j v] p IH]; [reflexivity|].
  cbn [filter map fst]. destruct (startswith (k +++ "_") j); cbn [map fst]; rewrite IH; reflexivity.
Qed.

Lemma sub_spec k j : In j (sub k) <-> contained o j /\ exists r, j = k +++ "_" +++ r.
Proof.
  unfold sub. rewrite filter_In. unfold contained. split; intros [H1 H2]; (split; [exact H1|]).
  - unfold startswith in H2. apply prefix_spec in H2. destruct H2 as [r H2]. exists r. rewrite H2, sapp_assoc. reflexivity.
  - destruct H2 as [r ->]. unfold startswith. apply prefix_spec. exists r. rewrite sapp_assoc. reflexivity.
Qed.

Lemma sdrop_sub k r : sdrop (String.length k + 1) (k +++ "_" +++ r) = r.
Proof. rewrite <- sapp_assoc, <- slength_1. apply sdrop_app. Qed.

Lemma var_names k x : In k (entry_keys o') -> nv_attrs x = vattrs E o' k ->
  undotted (netcdf_name k) :: map (fun b => undotted (netcdf_name k) +++ "_" +++ b)
     (filter (fun b => negb (String.eqb b "_Encoding")) (dkeys (nv_attrs x))) = k :: sub k.
Proof.
  intros IK ->. apply entry_keys_iff in IK. destruct IK as [e [v IV]].
  rewrite (netcdf_name_undotted k) by apply (st_name _ _ ST k e v IV). f_equal. rewrite vattrs_keys.
  assert (S : forall j, In j (sub k) -> contained o j /\ exists r, j = k +++ "_" +++ r) by (intros j; apply sub_spec).
  revert S. induction (sub k) as [|j l IH]; intro S; [reflexivity|].
  destruct (S j (or_introl eq_refl)) as [C [r ->]].
  assert (X : attribute_of cv o k r (k +++ "_" +++ r)) by (split; eauto).
  destruct (fa_once _ _ FA k r _ X C) as [_ [_ [NE _]]].
  cbn [map filter]. rewrite sdrop_sub. destruct (String.eqb_spec r "_Encoding"); [contradiction|]. cbn [negb map].
  f_equal. apply IH. intros i I. apply S. right. exact I.
Qed.

Definition names_of (k : string) : list string := k :: sub k.

Lemma names_eq : file_names f = filter (startswith "GLOBAL_") (dkeys (pub o)) ++ flat_map names_of (entry_keys o').
Proof.
  destruct written as [W1 [_ [_ [_ W5]]]]. unfold file_names. rewrite W1, gattrs_keys, P. f_equal.
  - rewrite map_map. rewrite <- map_id. apply map_ext_in. intros k I. apply filter_In in I.
    symmetry. apply (sdrop_prefix "GLOBAL_"). apply (proj2 I).
  - assert (X : forall l vs, Forall2 (fun k nx => fst nx = netcdf_name k /\ stored_var E o' a k (snd nx)) l vs ->
      (forall k, In k l -> In k (entry_keys o')) ->
      flat_map (fun nx => undotted (fst nx)
        :: map (fun b => undotted (fst nx) +++ "_" +++ b)
               (filter (fun b => negb (String.eqb b "_Encoding")) (dkeys (nv_attrs (snd nx))))) vs = flat_map names_of l).
    { induction 1 as [|k [n x] l vs [H1 H2] _ IH]; intro S; [reflexivity|]. cbn [flat_map]. rewrite IH by (intros j J; apply S; right; exact J).
      f_equal. cbn [fst snd] in *. subst n. assert (IK := S k (or_introl eq_refl)).
      apply var_names; [exact IK|]. apply entry_keys_iff in IK. destruct IK as [e [v IV]].
      destruct (stored_held k e v x IV H2) as [? [? [? [? [? [_ [_ [_ [_ [_ [_ Q]]]]]]]]]]]. exact Q. }
    apply (X _ _ W5). auto.
Qed.

Lemma sub_attribute k j : In k (entry_keys o') -> In j (sub k) -> exists r, attribute_of cv o k r j /\ contained o j.
Proof.
  intros IK IJ. apply entry_keys_iff in IK. apply sub_spec in IJ. destruct IJ as [C [r ->]]. exists r. split; [split; auto|exact C].
Qed.

Lemma not_both k : is_attribute cv o k -> ~ In k (entry_keys o').
Proof.
  intros [C [e [D T]]] I. apply entry_keys_iff in I. destruct I as [e' [v [D' [T' _]]]]. congruence.
Qed.

Lemma names_nodup : NoDup (file_names f).
Proof.
  rewrite names_eq. assert (NP := vd_nodup _ _ _ _ _ _ V). apply NoDup_app_intro.
  - apply NoDup_filter. exact NP.
  - apply NoDup_flat_map; [apply entry_keys_nodup|..].
    + intros k IK. constructor; [|apply NoDup_filter; exact NP]. intro I.
      destruct (sub_attribute k k IK I) as [r [A C]]. destruct (fa_once _ _ FA k r k A C) as [AT _]. apply (not_both k AT IK).
    + intros j k b J K [<-|I1] [Q|I2]; auto.
      * destruct (sub_attribute k j K I2) as [r [A C]]. destruct (fa_once _ _ FA k r j A C) as [AT _]. destruct (not_both j AT J).
      * subst b. destruct (sub_attribute j k J I1) as [r [A C]]. destruct (fa_once _ _ FA j r k A C) as [AT _]. destruct (not_both k AT K).
      * destruct (sub_attribute j b J I1) as [r [A C]]. destruct (sub_attribute k b K I2) as [r' [A' _]].
        destruct (fa_once _ _ FA k r' b A' C) as [_ [_ [_ U]]]. apply (U j r A).
  - intros b I J. apply filter_In in I. destruct I as [I1 I2]. unfold startswith in I2. apply prefix_spec in I2. destruct I2 as [r ->].
    assert (GA := fa_global _ _ FA r I1).
    apply in_flat_map in J. destruct J as [k [K [Q|J]]]; [subst k; apply (not_both _ GA K)|].
    destruct (sub_attribute k _ K J) as [r' [A C]]. destruct (fa_once _ _ FA k r' _ A C) as [_ [NG _]]. apply (NG r eq_refl).
Qed.

Lemma names_iff k : In k (file_names f) <-> contained o k.
Proof.
  rewrite names_eq, in_app_iff, filter_In, in_flat_map. split.
  - intros [[H _]|[j [J [<-|H]]]]; [exact H| |apply sub_spec in H; apply (proj1 H)].
    apply entry_keys_iff in J. destruct J as [e [v [_ [_ G]]]]. apply dget_Some_In. eauto.
  - intro C. assert (C' := C). apply dget_Some_In in C'. destruct C' as [v G].
    destruct (vd_type _ _ _ _ _ _ V k v G) as [e [D TY]].
    destruct (String.eqb_spec (e_type e) "attribute") as [TA|TA].
    + assert (AT : is_attribute cv o k) by (split; eauto). destruct (fa_home _ _ FA k AT) as [[r ->]|[j [r AJ]]].
      * left. split; [exact C|]. unfold startswith. apply prefix_spec. eauto.
      * right. exists j. split; [apply entry_keys_iff; apply (proj1 AJ)|]. right. apply sub_spec. split; [exact C|]. exists r. apply (proj2 AJ).
    + right. exists k. split; [apply entry_keys_iff; exists e, v; repeat split; auto|left; reflexivity].
Qed.

(** ** The file can be read *)
Lemma texts_length n ts : (forall s, In s ts -> String.length s <= n) ->
  String.length (sconcat (fixed_width n) ts) = List.length ts * n.
Proof.
  induction ts as [|s ts IH]; intro H; [reflexivity|]. cbn [sconcat List.length].
  rewrite sapp_length, fixed_width_length, IH; [lia| |].
  - intros u I. apply H. right. exact I.
  - apply H. left. reflexivity.
Qed.

Lemma Forall2_len {A B} (R : A -> B -> Prop) l m : Forall2 R l m -> List.length l = List.length m.
Proof. induction 1; cbn; auto. Qed.

Lemma var_elements k e v : is_variable cv o k e v -> List.length (elements v) = prod (shape_of v).
Proof.
  intros [D [T G]]. destruct (vd_type _ _ _ _ _ _ V k v G) as [e' [D' TY]].
  exact (sound_length v _ TY (st_sound _ _ ST k v G)).
Qed.

Lemma held_wf k e v alt n sh x b : is_variable cv o k e v -> alt <> "" ->
  held k e v alt n sh (nv_data x) (nv_shape x) b -> var_wf x /\ var_readable x.
Proof.
  intros IV NA H. assert (L := var_elements k e v IV). unfold var_wf, var_readable.
  revert H. generalize (nv_data x) (nv_shape x). intros dd ss H.
  destruct H as [sh0 fs t H1 H2 [H3 [H4 _]] H5 H6|sh0 ts t H1 H2 H3 [H4 [H5 _]] [bb [H6 H7]] H8].
  - split.
    + split; [auto|]. split; [|intros y I; apply in_map_iff in I; destruct I as [z [<- _]]; reflexivity].
      rewrite map_length, <- (Forall2_len _ _ _ H2), L. congruence.
    + intro Q. rewrite Q in H3. destruct alt; [congruence|discriminate].
  - assert (LE : forall s, In s (map strip_nul ts) -> String.length s <= Nat.max 1 n).
    { intros s I. apply in_map_iff in I. destruct I as [u [<- I]]. assert (X := strip_nul_shorter u). destruct (H3 u I). lia. }
    split.
    + rewrite (texts_length _ _ LE), map_length, prod_app'. cbn [prod]. rewrite H5, <- L, H2, map_length. lia.
    + split; [exists t, (Nat.max 1 n); split; [reflexivity|lia]|].
      intros c I. apply chars_fixed in I; [|exact LE]. destruct I as [->|[s [I J]]]; [cbn; lia|].
      apply in_map_iff in I. destruct I as [u [<- I]]. destruct (H3 u I) as [AU _]. apply chars_strip in J.
      unfold ascii_text in AU. rewrite Forall_forall in AU. auto.
Qed.

Lemma alt_nonempty k e v d alt : is_variable cv o k e v -> e_dims e = Some d -> In alt (alternatives d) -> alt <> "".
Proof.
  intros IV ED I. destruct (st_dims _ _ ST k e v IV) as [d' [ED' [TD _]]]. rewrite ED in ED'. injection ED' as <-.
  apply (TD alt I).
Qed.

(** every variable of the file *)
Lemma file_var n x : In (n, x) (nf_vars f) -> exists k e v d alt m sh b, is_variable cv o k e v /\ n = netcdf_name k
  /\ e_dims e = Some d /\ In alt (alternatives d) /\ dget k ds = Some (upper alt)
  /\ dget "S" a = Some m /\ held k e v alt m sh (nv_data x) (nv_shape x) b
  /\ nv_dims x = map str1 (chars (upper alt)) /\ nv_attrs x = vattrs E o' k.
Proof.
  intro I. destruct written as [_ [_ [_ [_ W5]]]].
  assert (X : exists k, In k (entry_keys o') /\ n = netcdf_name k /\ stored_var E o' a k x).
  { clear - W5 I. induction W5 as [|k nx l vs [H1 H2] _ IH]; [destruct I|]. destruct I as [->|I].
    - exists k. cbn [fst snd] in *. split; [left; reflexivity|auto].
    - destruct (IH I) as [j [J1 J2]]. exists j. split; [right; exact J1|exact J2]. }
  destruct X as [k [IK [-> SV]]]. apply entry_keys_iff in IK. destruct IK as [e [v IV]].
  destruct (stored_held k e v x IV SV) as [d [alt [m [sh [b [H1 [H2 [H3 [H4 [H5 [H6 H7]]]]]]]]]]].
  exists k, e, v, d, alt, m, sh, b. auto 12.
Qed.

Lemma var_file k e v : is_variable cv o k e v -> exists x, In (netcdf_name k, x) (nf_vars f) /\ stored_var E o' a k x.
Proof.
  intro IV. assert (IK : In k (entry_keys o')) by (apply entry_keys_iff; eauto).
  destruct written as [_ [_ [_ [_ W5]]]]. clear - W5 IK. induction W5 as [|j [n x] l vs [H1 H2] _ IH]; [destruct IK|].
  cbn [fst snd] in *. destruct IK as [->|IK].
  - exists x. split; [left; congruence|exact H2].
  - destruct (IH IK) as [y [Y1 Y2]]. exists y. split; [right; exact Y1|exact Y2].
Qed.

Lemma attrs_texts l b w : In (b, w) (gattrs E o') \/ In (b, w) (vattrs E o' l) -> exists t, w = VStr false t.
Proof.
  unfold gattrs, vattrs. intros [I|I]; apply in_map_iff in I; destruct I as [[k v] [Q _]]; injection Q as _ <-; eauto.
Qed.

Lemma file_is_wf : file_wf f.
Proof.
  destruct written as [W1 _]. constructor.
  - intros b w I. rewrite W1 in I. destruct (attrs_texts "" b w (or_introl I)) as [t ->]. exact Logic.I.
  - intros n x I. destruct (file_var n x I) as [k [e [v [d [alt [m [sh [b [IV [_ [H1 [H2 [_ [_ [H3 _]]]]]]]]]]]]]]].
    apply (held_wf k e v alt m sh x b IV (alt_nonempty k e v d alt IV H1 H2) H3).
  - intros n x b w I J. destruct (file_var n x I) as [k [e [v [d [alt [m [sh [bb [IV [_ [H1 [H2 [_ [_ [H3 [_ H4]]]]]]]]]]]]]]]].
    rewrite H4 in J. destruct (attrs_texts k b w (or_intror J)) as [t ->]. exact Logic.I.
Qed.

Lemma file_can_be_read : file_readable f.
Proof.
  destruct written as [W1 _]. split; [|split].
  - intros b I. rewrite W1, gattrs_keys, P in I. apply in_map_iff in I. destruct I as [k [<- I]].
    apply filter_In in I. destruct I as [I1 I2]. assert (X := sdrop_prefix _ _ I2). change (String.length "GLOBAL_") with 7 in X.
    apply (st_gattr _ _ ST). unfold contained. rewrite <- X. exact I1.
  - intros n x I. destruct (file_var n x I) as [k [e [v [d [alt [m [sh [bb [IV [_ [H1 [H2 [_ [_ [H3 [_ H4]]]]]]]]]]]]]]]].
    split; [apply (held_wf k e v alt m sh x bb IV (alt_nonempty k e v d alt IV H1 H2) H3)|].
    assert (LG : forall b, In b (dkeys (nv_attrs x)) -> legal_attr variable_members b).
    { intros b J. rewrite H4, vattrs_keys in J. apply in_map_iff in J. destruct J as [j [<- J]].
      apply sub_spec in J. destruct J as [C [r ->]]. rewrite sdrop_sub. apply (st_vattr _ _ ST k e v r IV C). }
    split; [intros b J; apply (LG b J)|intros b J _; apply (LG b J)].
  - intros k I. apply names_iff in I. apply (fa_clean _ _ FA k I).
Qed.

(** ** The data are the same *)
Lemma remove_nul_id t : has_char Ascii.zero t = false -> remove_nul t = t.
Proof.
  induction t as [|c t IH]; intro H; [reflexivity|]. cbn [has_char remove_nul] in *. apply orb_false_iff in H. destruct H as [H1 H2].
  rewrite Ascii.eqb_sym, H1 || rewrite H1. f_equal. auto.
Qed.

Lemma attr_text k : is_attribute cv o k -> exists b t, dget k (pub o) = Some (VStr b t)
  /\ remove_nul (py_str E (VStr b t)) = t.
Proof.
  intro AT. assert (AT' := AT). destruct AT' as [C [e [D T]]]. apply dget_Some_In in C. destruct C as [v G].
  destruct (vd_type _ _ _ _ _ _ V k v G) as [e' [D' TY]]. rewrite D in D'. injection D' as <-. rewrite T in TY.
  unfold has_type in TY. destruct TY as [[_ [b [t ->]]]|[[X _]|[X _]]]; try discriminate.
  exists b, t. split; [exact G|]. cbn [py_str]. apply remove_nul_id. apply (fa_attrs _ _ FA k b t AT G).
Qed.

Lemma tl_ones s : prod s = 1 -> sh_squeeze (tl s) = sh_squeeze s.
Proof.
  intro H. apply prod_ones_iff in H. rewrite (ones_squeeze s H). apply ones_squeeze. intros m I. apply H.
  destruct s; [destruct I|right; exact I].
Qed.

Lemma texts_same s n ts us : (forall t, In t ts -> String.length t <= n) -> (forall t, In t ts -> forall r, t <> r +++ nuls 1) ->
  List.length ts = prod s ->
  texts_in s n (sconcat (fixed_width n) (map strip_nul ts)) us -> us = ts.
Proof.
  intros LE NN LP [L H]. apply nth_ext with (d := "") (d' := ""); [congruence|]. intros i Hi.
  assert (U := nth_error_nth' us "" Hi). destruct (H i _ U) as [[m PC] MX].
  assert (HT : i < List.length ts) by congruence. assert (W := nth_error_nth' ts "" HT).
  set (u := nth i us "") in *. set (t := nth i ts "") in *.
  assert (IT : In t ts) by (apply (nth_error_In _ _ W)).
  assert (LS : forall x, In x (map strip_nul ts) -> String.length x <= n).
  { intros x I. apply in_map_iff in I. destruct I as [y [<- I]]. assert (X := strip_nul_shorter y). specialize (LE y I). lia. }
  assert (PF := pieces_fixed n (map strip_nul ts) LS).
  assert (NP : nth_error (pieces (List.length (map strip_nul ts)) n (sconcat (fixed_width n) (map strip_nul ts))) i
               = Some (fixed_width n (strip_nul t))).
  { rewrite PF, !nth_error_map, W. reflexivity. }
  apply nth_pieces in NP. rewrite PC in NP.
  assert (Q := f_equal strip_nul NP). rewrite strip_fixed in Q.
  - rewrite strip_nul_idem, (strip_nul_id t (NN t IT)), strip_nul_app, (strip_nul_id u MX) in Q. exact (eq_sym Q) || exact Q.
  - apply LS. apply in_map. exact IT.
Qed.

Lemma same_data_entries p : same_data f p -> same_entries cv o p.
Proof.
  intro SD. constructor.
  - intro k. rewrite (sd_names _ _ SD k). apply names_iff.
  - intros k AT. destruct (attr_text k AT) as [b [t [G RN]]]. exists b, t. split; [exact G|].
    destruct (fa_home _ _ FA k AT) as [[r ->]|[j [r AJ]]].
    + assert (I : In (r, VStr false t) (nf_attrs f)).
      { destruct written as [W1 _]. rewrite W1. unfold gattrs. rewrite P. apply in_map_iff. exists ("GLOBAL_" +++ r, VStr b t).
        cbn [fst snd]. rewrite RN. split; [reflexivity|]. apply filter_In. split; [apply dget_In; exact G|].
        cbn [fst]. unfold startswith. apply prefix_spec. eauto. }
      destruct (sd_attrs _ _ SD _ _ I) as [w [GW AH]]. cbn [attr_held] in AH. congruence.
    + destruct AJ as [[e [v IV]] KE]. destruct (var_file j e v IV) as [x [IX SX]].
      destruct (stored_held j e v x IV SX) as [? [? [? [? [? [_ [_ [_ [_ [_ [_ VA]]]]]]]]]]].
      assert (I : In (r, VStr false t) (nv_attrs x)).
      { rewrite VA. unfold vattrs. rewrite P. apply in_map_iff. exists (k, VStr b t). cbn [fst snd].
        rewrite RN, KE, sdrop_sub. split; [reflexivity|]. apply filter_In. split; [rewrite <- KE; apply dget_In; exact G|].
        cbn [fst]. unfold startswith. apply prefix_spec. exists r. rewrite sapp_assoc. reflexivity. }
      assert (NE : r <> "_Encoding").
      { assert (AO : attribute_of cv o j r k) by (split; eauto). apply (fa_once _ _ FA j r k AO). apply (proj1 AT). }
      destruct (sd_vattrs _ _ SD _ _ _ _ IX I NE) as [w [GW AH]]. cbn [attr_held] in AH.
      rewrite (netcdf_name_undotted j) in GW by apply (st_name _ _ ST j e v IV). congruence.
  - intros k e v IV T. destruct (var_file k e v IV) as [x [IX SX]].
    destruct (stored_held k e v x IV SX) as [d [alt [m [sh [b [H1 [H2 [H3 [H4 [H5 [H6 H7]]]]]]]]]]].
    destruct (sd_vars _ _ SD _ _ IX) as [w [GW [s [s' [dd [VH [VI [MS [SH [_ KQ]]]]]]]]]].
    rewrite (netcdf_name_undotted k) in GW by apply (st_name _ _ ST k e v IV).
    remember (nv_data x) as D eqn:ED. remember (nv_shape x) as S eqn:ES.
    destruct H5 as [sh fs t X1 X2 [X3 [X4 X5]] X6 X7|sh ts t X1]; [|congruence].
    assert (NF : forall z g, In z (elements v) -> number z g -> f_eqb fill64 g = false)
      by (intros z g IZ NZ; apply (fa_numbers _ _ FA k e v z g IV IZ NZ)).
    destruct VH as [kk fill d0 d1 Y1 Y3|ss n0 tt0 us Y1]; [|congruence]. rewrite <- ED in Y1. injection Y1 as <- <- <-.
    rewrite <- ES in SH. exists w, s', d1. split; [exact GW|]. split; [exact VI|]. split.
    { assert (TY : has_type "double" v).
      { destruct IV as [D0 [_ G0]]. destruct (vd_type _ _ _ _ _ _ V k v G0) as [e' [D' TY]]. rewrite D0 in D'. injection D' as <-. rewrite T in TY. exact TY. }
      assert (Q := sound_missing v TY (st_sound _ _ ST k v (proj2 (proj2 IV)))).
      assert (Q' := filed_missing _ _ X2 NF).
      rewrite MS. unfold has_missing. rewrite <- ED. apply eq_true_iff_eq. rewrite Q', Q. reflexivity. }
    split; [apply (filed_read _ _ X2 NF _ Y3)|].
    split; [destruct SH as [->|[SH ->]]; [exact X5|]; rewrite tl_ones by exact SH; exact X5|].
    intros b0 W0. apply (KQ b0 _ _ _ W0 eq_refl).
  - intros k e v IV T. destruct (var_file k e v IV) as [x [IX SX]].
    destruct (stored_held k e v x IV SX) as [d [alt [m [sh [b [H1 [H2 [H3 [H4 [H5 [H6 H7]]]]]]]]]]].
    destruct (sd_vars _ _ SD _ _ IX) as [w [GW [s [s' [dd [VH [VI [MS [SH _]]]]]]]]].
    rewrite (netcdf_name_undotted k) in GW by apply (st_name _ _ ST k e v IV).
    assert (LV := var_elements k e v IV).
    remember (nv_data x) as D eqn:ED. remember (nv_shape x) as S eqn:ES.
    destruct H5 as [sh fs t X1|sh ts t X1 X2 X3 [X4 [X5 X6]] X7 X8]; [congruence|].
    inversion VH as [kk fill d0 Y1|ss n0 tt0 us Y1 Y2 Y3 Y4 Y5]; [congruence|]. rewrite <- ED in Y1. injection Y1 as <-.
    rewrite <- ES in Y2. apply app_inj_tail in Y2. destruct Y2 as [<- <-].
    assert (US : us = ts).
    { apply (texts_same t (Nat.max 1 m)); auto.
      - intros u I. destruct (X3 u I). lia.
      - intros u I. apply (fa_texts _ _ FA k e v u IV). rewrite X2. apply in_map. exact I.
      - rewrite X5, <- LV, X2, map_length. reflexivity. }
    subst us dd. exists w, s'. split; [exact GW|]. split; [rewrite X2; exact VI|]. split.
    { rewrite MS. unfold has_missing. rewrite <- ED. reflexivity. }
    assert (QS : sh_squeeze s = sh_squeeze (shape_of v)) by (rewrite <- X6, <- Y4; destruct t; reflexivity).
    destruct SH as [->|[SH ->]]; [exact QS|]. rewrite tl_ones by exact SH. exact QS.
Qed.
End Same.
