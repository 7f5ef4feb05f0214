(** Lemmas about updating conventions. *)
From Verif Require Import Base PyStr PyNum NdArray Sofa UpdateConv SpecUpdate
  BaseFacts StrFacts WriteFacts StreamFacts.
From Coq Require Import Lia.
Open Scope string_scope.
Open Scope list_scope.
Open Scope nat_scope.

(** ** Cleaning *)
Lemma sapp_assoc (a b c : string) : (a +++ b) +++ c = a +++ b +++ c.
Proof. induction a as [|x a IH]; [reflexivity|]. cbn [append]. now rewrite IH. Qed.

Lemma slength_app (a b : string) : String.length (a +++ b) = String.length a + String.length b.
Proof. induction a as [|x a IH]; [reflexivity|]. cbn [append String.length]. now rewrite IH. Qed.

(** replacing an end [w c] directly after [b] *)
Lemma replace_end w c new t : has_char c w = false -> forall b, has_char c b = false ->
  replace (w +++ str1 c) new (b +++ w +++ String c t) = b +++ new +++ replace (w +++ str1 c) new t.
Proof.
  intro HW. induction b as [|y b IH]; intro HB.
  - change ("" +++ w +++ String c t) with (w +++ String c t).
    replace (w +++ String c t) with ((w +++ str1 c) +++ t) by (now rewrite sapp_assoc).
    rewrite replace_found; [reflexivity|]. destruct w; discriminate.
  - cbn [has_char] in HB. apply orb_false_iff in HB. destruct HB as [H1 H2].
    cbn [append]. unfold replace. cbn [replace_aux].
    destruct (prefix (w +++ str1 c) (String y (b +++ w +++ String c t))) eqn:P.
    + exfalso. assert (X : String y (b +++ w) = w).
      { apply (prefix_before c w (String y (b +++ w)) t HW).
        - cbn [has_char]. rewrite has_char_app, H1, H2, HW. reflexivity.
        - cbn [append]. rewrite sapp_assoc. exact P. }
      assert (L : String.length (String y (b +++ w)) = String.length w) by now rewrite X.
      cbn [String.length] in L. rewrite slength_app in L. lia.
    + f_equal. unfold replace in IH. apply IH. exact H2.
Qed.

Lemma no_nl_tab : has_char NL (str1 TAB) = false. Proof. reflexivity. Qed.
Lemma no_nl_cr : has_char NL (str1 CR) = false. Proof. reflexivity. Qed.

Lemma end_diff a c d b : c <> d -> b +++ str1 c <> a +++ str1 d.
Proof.
  intros N E. assert (L : String.length b = String.length a).
  { assert (L := f_equal String.length E). rewrite !slength_app in L. cbn in L. lia. }
  revert a E L. induction b as [|x b IH]; intros [|y a] E L; try discriminate L.
  - cbn in E. injection E as E. apply N. exact E.
  - cbn [append] in E. injection E as _ E. injection L as L. exact (IH a E L).
Qed.

Lemma clean_cleaned s t : cleaned s t -> clean s = t.
Proof.
  unfold clean. induction 1 as [b NB|b e s t NB NT NC IE C IH].
  - rewrite (replace_absent NL (str1 CR) _ b NB). apply (replace_absent NL (str1 TAB) _ b NB).
  - assert (NBT : has_char NL (b +++ str1 TAB) = false) by (rewrite has_char_app, NB; reflexivity).
    assert (NTC : forall r, b +++ str1 TAB <> r +++ str1 CR) by (intro r; apply end_diff; discriminate).
    rewrite <- IH. destruct IE as [<-|[<-|[<-|[<-|[]]]]].
    + change (str1 NL +++ s) with (String NL s).
      rewrite (replace_skip (str1 CR) NL (str1 NL) s no_nl_cr b NB NC).
      rewrite (replace_skip (str1 TAB) NL (str1 NL) _ no_nl_tab b NB NT). reflexivity.
    + replace (b +++ (str1 TAB +++ str1 NL) +++ s) with ((b +++ str1 TAB) +++ String NL s) by (now rewrite sapp_assoc).
      rewrite (replace_skip (str1 CR) NL (str1 NL) s no_nl_cr (b +++ str1 TAB) NBT NTC), sapp_assoc.
      rewrite (replace_end (str1 TAB) NL (str1 NL) _ no_nl_tab b NB). reflexivity.
    + change ((str1 CR +++ str1 NL) +++ s) with (str1 CR +++ String NL s).
      rewrite (replace_end (str1 CR) NL (str1 NL) s no_nl_cr b NB).
      change (str1 NL +++ ?x) with (String NL x).
      rewrite (replace_skip (str1 TAB) NL (str1 NL) _ no_nl_tab b NB NT). reflexivity.
    + replace (b +++ (str1 TAB +++ str1 CR +++ str1 NL) +++ s) with ((b +++ str1 TAB) +++ str1 CR +++ String NL s) by (now rewrite sapp_assoc).
      rewrite (replace_end (str1 CR) NL (str1 NL) s no_nl_cr (b +++ str1 TAB) NBT), sapp_assoc.
      change (str1 NL +++ ?x) with (String NL x).
      rewrite (replace_end (str1 TAB) NL (str1 NL) _ no_nl_tab b NB). reflexivity.
Qed.

Lemma cleaned_again s t : cleaned s t -> cleaned t t.
Proof.
  induction 1 as [b NB|b e s t NB NT NC IE C IH]; [constructor; exact NB|].
  apply (cl_line b (str1 NL) t t NB NT NC); [left; reflexivity|exact IH].
Qed.

Lemma clean_idem s t : cleaned s t -> clean (clean s) = clean s.
Proof. intro C. rewrite (clean_cleaned s t C). apply clean_cleaned, (cleaned_again s t C). Qed.

(** ** The plan *)
Section PLAN.
Variable Sv : server.
Variable d : cdir.
Hypothesis SL : forall c, In c (standardized Sv ++ deprecated Sv) -> has_char "/" c = false.

Notation std c := (smem c (standardized Sv)).
Definition data_of (c : string) : string := clean (content Sv (std c) c).

Definition needs_update (c p : string) : Prop :=
  excluded c = false /\
  ((std c = true /\ p = c /\ (is_file c d = false \/ differs c (data_of c) d = true)) \/
   (std c = false /\ is_file c d = false /\ p = deprecated_path c /\
    (is_file p d = false \/ differs p (data_of c) d = true))).
Definition needs_deprecation (c : string) : Prop :=
  excluded c = false /\ std c = false /\ is_file c d = true.

Record planned (l : list string) (p : plan) : Prop := {
  pl_upd : forall q, In q (p_update p) <-> exists c, In c l /\ needs_update c q;
  pl_dep : forall c, In c (p_deprecate p) <-> In c l /\ needs_deprecation c;
  pl_flag : p_updated p = false <-> p_update p = [] /\ p_deprecate p = [];
  pl_temp : forall q x, dget q (p_temp p) = Some x ->
     exists c, In c l /\ excluded c = false /\ x = data_of c /\
       ((std c = true /\ q = c) \/ (std c = false /\ q = deprecated_path c));
  pl_have : forall q, In q (p_update p) -> dget q (p_temp p) <> None;
  pl_haved : forall c, In c (p_deprecate p) -> dget (deprecated_path c) (p_temp p) <> None;
  pl_ev : p_updated p = false -> p_events p = [];
  pl_nd : NoDup (filter (fun c => negb (std c)) l) -> NoDup (p_deprecate p) }.

Lemma dset_have {A} k (v : A) q m : dget q m <> None -> dget q (dset k v m) <> None.
Proof. intro H. rewrite dget_dset. destruct (String.eqb q k); [discriminate|exact H]. Qed.

Lemma planned_upd l p c q m : planned l p -> needs_update c q ->
  planned (l ++ [c]) (Plan true (p_update p ++ [q]) (p_deprecate p) (dset q (data_of c) (p_temp p)) (p_events p ++ m)).
Proof.
  intros P N. constructor; cbn [p_update p_deprecate p_temp p_updated].
  - intro r. rewrite in_app_iff, (pl_upd _ _ P). split.
    + intros [[c' [I X]]|[<-|[]]]; [exists c'|exists c]; (split; [apply in_or_app; auto; right; left; reflexivity|assumption]).
    + intros [c' [I X]]. apply in_app_or in I. destruct I as [I|[<-|[]]]; [left; exists c'; auto|].
      right. left. destruct N as [_ [[N1 [N2 _]]|[N1 [N2 [N3 _]]]]], X as [_ [[X1 [X2 _]]|[X1 [X2 [X3 _]]]]]; try congruence.
  - intro c'. rewrite (pl_dep _ _ P). rewrite in_app_iff. split; [intros [I X]; auto|].
    intros [[I|[<-|[]]] X]; [auto|]. exfalso. destruct X as [_ [X1 X2]], N as [_ [[N1 _]|[_ [N2 _]]]]; congruence.
  - split; [discriminate|]. intros [E _]. destruct (p_update p); discriminate E.
  - intros r x. rewrite dget_dset. destruct (String.eqb_spec r q) as [->|NE].
    + intros [= <-]. exists c. split; [apply in_or_app; right; left; reflexivity|]. split; [apply N|]. split; [reflexivity|].
      destruct N as [_ [[N1 [N2 _]]|[N1 [_ [N2 _]]]]]; [left|right]; auto.
    + intro G. destruct (pl_temp _ _ P r x G) as [c' [I X]]. exists c'. split; [apply in_or_app; auto|exact X].
  - intros r I. apply in_app_or in I. destruct I as [I|[<-|[]]].
    + apply dset_have, (pl_have _ _ P r I).
    + rewrite dget_dset_same. discriminate.
  - intros r I. apply dset_have, (pl_haved _ _ P r I).
  - discriminate.
  - intro ND. apply (pl_nd _ _ P). rewrite filter_app in ND. apply NoDup_app_l in ND. exact ND.
Qed.

Lemma planned_depr l p c m : planned l p -> needs_deprecation c ->
  planned (l ++ [c]) (Plan true (p_update p) (p_deprecate p ++ [c]) (dset (deprecated_path c) (data_of c) (p_temp p)) (p_events p ++ m)).
Proof.
  intros P N. destruct N as [N0 [N1 N2]]. constructor; cbn [p_update p_deprecate p_temp p_updated].
  - intro r. rewrite (pl_upd _ _ P). split; intros [c' [I X]]; exists c'; [split; [apply in_or_app; auto|exact X]|].
    apply in_app_or in I. destruct I as [I|[<-|[]]]; [auto|]. exfalso. destruct X as [_ [[X _]|[_ [X _]]]]; congruence.
  - intro c'. rewrite !in_app_iff, (pl_dep _ _ P). split.
    + intros [[I X]|[<-|[]]]; [auto|]. split; [right; left; reflexivity|repeat split; assumption].
    + intros [[I|[<-|[]]] X]; [auto|]. right. left. reflexivity.
  - split; [discriminate|]. intros [_ E]. destruct (p_deprecate p); discriminate E.
  - intros r x. rewrite dget_dset. destruct (String.eqb_spec r (deprecated_path c)) as [->|NE].
    + intros [= <-]. exists c. split; [apply in_or_app; right; left; reflexivity|]. auto.
    + intro G. destruct (pl_temp _ _ P r x G) as [c' [I X]]. exists c'. split; [apply in_or_app; auto|exact X].
  - intros r I. apply dset_have, (pl_have _ _ P r I).
  - intros r I. apply in_app_or in I. destruct I as [I|[<-|[]]].
    + apply dset_have, (pl_haved _ _ P r I).
    + rewrite dget_dset_same. discriminate.
  - discriminate.
  - rewrite filter_app. cbn [filter]. rewrite N1. cbn [negb]. intro ND.
    assert (NI : ~ In c (p_deprecate p)).
    { intro I. apply (pl_dep _ _ P) in I. destruct I as [I _].
      apply (NoDup_app_disjoint _ _ ND c); [|left; reflexivity]. apply filter_In. split; [exact I|]. rewrite N1. reflexivity. }
    apply NoDup_app_l in ND. apply (pl_nd _ _ P) in ND.
    apply (Permutation.Permutation_NoDup (Permutation.Permutation_cons_append (p_deprecate p) c)). constructor; assumption.
Qed.

Lemma planned_skip l p c : planned l p -> (forall q, ~ needs_update c q) -> ~ needs_deprecation c ->
  planned (l ++ [c]) p.
Proof.
  intros P NU ND. constructor.
  - intro r. rewrite (pl_upd _ _ P). split; intros [c' [I X]]; exists c'; [split; [apply in_or_app; auto|exact X]|].
    apply in_app_or in I. destruct I as [I|[<-|[]]]; [auto|]. destruct (NU _ X).
  - intro c'. rewrite in_app_iff, (pl_dep _ _ P). split; [intros [I X]; auto|].
    intros [[I|[<-|[]]] X]; [auto|]. destruct (ND X).
  - apply (pl_flag _ _ P).
  - intros r x G. destruct (pl_temp _ _ P r x G) as [c' [I X]]. exists c'. split; [apply in_or_app; auto|exact X].
  - apply (pl_have _ _ P).
  - apply (pl_haved _ _ P).
  - apply (pl_ev _ _ P).
  - intro NF. apply (pl_nd _ _ P). rewrite filter_app in NF. apply NoDup_app_l in NF. exact NF.
Qed.

Lemma planned_step l p c : planned l p -> planned (l ++ [c]) (consider Sv d p c).
Proof.
  intro P. unfold consider. destruct (excluded c) eqn:EX.
  { apply planned_skip; [exact P| |]; intros; intros [X _]; congruence. }
  fold (data_of c). destruct (std c) eqn:ST; cbn [andb negb].
  - destruct (is_file c d) eqn:IF; cbn [andb negb].
    + destruct (differs c (data_of c) d) eqn:DF.
      * apply planned_upd; [exact P|]. split; [exact EX|]. left. auto.
      * apply planned_skip; [exact P| |].
        -- intros q [_ [[_ [_ [X|X]]]|[X _]]]; congruence.
        -- intros [_ [X _]]; congruence.
    + apply planned_upd; [exact P|]. split; [exact EX|]. left. auto.
  - destruct (is_file c d) eqn:IF.
    + apply planned_depr; [exact P|]. split; auto.
    + destruct (is_file (deprecated_path c) d) eqn:ID; cbn [andb negb].
      * destruct (differs (deprecated_path c) (data_of c) d) eqn:DF.
        -- apply planned_upd; [exact P|]. split; [exact EX|]. right. auto.
        -- apply planned_skip; [exact P| |].
           ++ intros q [_ [[X _]|[_ [_ [-> [X|X]]]]]]; congruence.
           ++ intros [_ [_ X]]; congruence.
      * apply planned_upd; [exact P|]. split; [exact EX|]. right. auto.
Qed.

Lemma planned_all l : forall l0 p, planned l0 p -> planned (l0 ++ l) (fold_left (consider Sv d) l p).
Proof.
  induction l as [|c l IH]; intros l0 p P; cbn [fold_left]; [rewrite app_nil_r; exact P|].
  replace (l0 ++ c :: l) with ((l0 ++ [c]) ++ l) by (rewrite <- app_assoc; reflexivity).
  apply IH, planned_step, P.
Qed.

Lemma plan_ok : planned (standardized Sv ++ deprecated Sv) (make_plan Sv d).
Proof.
  unfold make_plan. apply (planned_all _ []). constructor; cbn.
  - intro q. split; [intros []|intros [c [[] _]]].
  - intro c. split; [intros []|intros [[] _]].
  - split; auto.
  - discriminate.
  - intros q [].
  - intros q [].
  - reflexivity.
  - constructor.
Qed.

(** temporary files are found under the right name *)
Lemma dep_slash c : has_char "/" (deprecated_path c) = true.
Proof. unfold deprecated_path. rewrite has_char_app. reflexivity. Qed.
Lemma dep_inj c c' : deprecated_path c = deprecated_path c' -> c = c'.
Proof. unfold deprecated_path. intro E. cbn [append] in E. now injection E. Qed.

Lemma temp_std c : In c (standardized Sv ++ deprecated Sv) -> std c = true ->
  forall x, dget c (p_temp (make_plan Sv d)) = Some x -> x = data_of c.
Proof.
  intros I ST x G. destruct (pl_temp _ _ plan_ok c x G) as [c' [I' [_ [-> [[S ->]|[S ->]]]]]]; [reflexivity|].
  exfalso. assert (X := SL _ I). rewrite dep_slash in X. discriminate X.
Qed.
Lemma temp_dep c : forall x, dget (deprecated_path c) (p_temp (make_plan Sv d)) = Some x ->
  x = data_of c /\ std c = false.
Proof.
  intros x G. destruct (pl_temp _ _ plan_ok _ x G) as [c' [I' [_ [-> [[S E]|[S E]]]]]].
  - exfalso. assert (X := SL _ I'). rewrite <- E, dep_slash in X. discriminate X.
  - apply dep_inj in E. subst c'. auto.
Qed.
End PLAN.

(** ** Applying the plan *)
Lemma copy_files_Ok temp l : forall d d', copy_files temp l d = (d', Ok tt) ->
  jsons d' = jsons d /\
  forall q, dget q (csvs d') = if smem q l then dget q temp else dget q (csvs d).
Proof.
  induction l as [|p l IH]; intros d d' H; cbn [copy_files] in H.
  - injection H as <-. split; [reflexivity|]. reflexivity.
  - unfold copy_file in H. destruct (dget p temp) as [x|] eqn:G; [|discriminate H].
    destruct (IH _ _ H) as [J Q]. split; [exact J|]. intro q. rewrite Q. cbn [csvs smem existsb].
    change (existsb (String.eqb q) l) with (smem q l).
    destruct (smem q l); [rewrite orb_true_r; reflexivity|]. rewrite orb_false_r, dget_dset.
    destruct (String.eqb_spec q p) as [->|NE]; [symmetry; exact G|reflexivity].
Qed.

Lemma copy_files_dir temp l : forall d d' r, copy_files temp l d = (d', r) -> dir_ok d -> dir_ok d'.
Proof.
  induction l as [|p l IH]; intros d d' r H W; cbn [copy_files] in H.
  - injection H as <- <-. exact W.
  - unfold copy_file in H. destruct (dget p temp) as [x|] eqn:G.
    + apply (IH _ _ _ H). destruct W as [W1 W2]. split; cbn; [apply NoDup_dset, W1|exact W2].
    + injection H as <- <-. exact W.
Qed.

Lemma copy_files_total temp l : (forall q, In q l -> dget q temp <> None) ->
  forall d, exists d', copy_files temp l d = (d', Ok tt).
Proof.
  induction l as [|p l IH]; intros H d; cbn [copy_files]; [eauto|].
  unfold copy_file. destruct (dget p temp) as [x|] eqn:G; [|destruct (H p (or_introl eq_refl) G)].
  apply IH. intros q I. apply H. right. exact I.
Qed.

Definition top_name (c : string) : Prop := exists x, c = x +++ ".csv" /\ has_char "/" x = false.

Lemma json_name_csv x : json_name (x +++ ".csv") = x +++ ".json".
Proof.
  unfold json_name. replace (x +++ ".csv") with ((x +++ ".") +++ "csv") by (now rewrite sapp_assoc).
  change 3 with (String.length "csv"). rewrite drop_end_app, sapp_assoc. reflexivity.
Qed.
Lemma sapp_inj_r a b c : a +++ c = b +++ c -> a = b.
Proof.
  intro E. assert (X : drop_end (String.length c) (a +++ c) = drop_end (String.length c) (b +++ c)) by now rewrite E.
  rewrite !drop_end_app in X. exact X.
Qed.
Lemma json_inj x y : json_name (x +++ ".csv") = json_name (y +++ ".csv") -> x +++ ".csv" = y +++ ".csv".
Proof. rewrite !json_name_csv. intro E. apply sapp_inj_r in E. now subst. Qed.

Lemma deprecate_files_Ok temp l : (forall c, In c l -> has_char "/" c = false) ->
  forall d d', dir_ok d -> deprecate_files temp l d = (d', Ok tt) ->
  dir_ok d' /\
  (forall q, dget q (csvs d') =
     if smem q l then None
     else if existsb (fun c => String.eqb q (deprecated_path c)) l then dget q temp
     else dget q (csvs d)) /\
  (forall j, dget j (jsons d') = if existsb (fun c => String.eqb j (json_name c)) l then None else dget j (jsons d)).
Proof.
  induction l as [|c l IH]; intros SL d d' W H; cbn [deprecate_files] in H.
  - injection H as <-. split; [exact W|]. split; reflexivity.
  - destruct W as [W1 W2].
    destruct (dmem c (csvs d)) eqn:M; [|discriminate H]. cbn [negb csvs jsons] in H.
    destruct (dmem (json_name c) (jsons d)) eqn:MJ; [|discriminate H]. cbn [negb] in H.
    unfold copy_file in H. destruct (dget (deprecated_path c) temp) as [x|] eqn:G; [|discriminate H].
    cbn [csvs jsons] in H.
    assert (SLc : has_char "/" c = false) by (apply SL; left; reflexivity).
    apply IH in H; [|intros y I; apply SL; right; exact I|split; cbn; [apply NoDup_dset, NoDup_ddel, W1|apply NoDup_ddel, W2]].
    destruct H as [W' [Q J]]. split; [exact W'|]. split.
    + intro q. rewrite Q. cbn [csvs smem existsb]. change (existsb (String.eqb q) l) with (smem q l).
      destruct (smem q l) eqn:M1; [rewrite orb_true_r; reflexivity|]. rewrite orb_false_r.
      destruct (existsb (fun c0 => String.eqb q (deprecated_path c0)) l) eqn:E1.
      * rewrite orb_true_r. destruct (String.eqb_spec q c) as [->|NE]; [|reflexivity].
        exfalso. apply existsb_exists in E1. destruct E1 as [y [_ E1]]. apply String.eqb_eq in E1.
        rewrite E1, dep_slash in SLc. discriminate SLc.
      * rewrite orb_false_r, dget_dset. destruct (String.eqb_spec q c) as [->|NE].
        -- destruct (String.eqb_spec c (deprecated_path c)) as [E|_].
           ++ exfalso. rewrite E, dep_slash in SLc. discriminate SLc.
           ++ apply dget_ddel_same, W1.
        -- destruct (String.eqb q (deprecated_path c)) eqn:E2.
           ++ apply String.eqb_eq in E2. rewrite E2. symmetry. exact G.
           ++ apply dget_ddel_other, NE.
    + intro j. rewrite J. cbn [jsons existsb]. destruct (existsb (fun c0 => String.eqb j (json_name c0)) l); [rewrite orb_true_r; reflexivity|].
      rewrite orb_false_r. destruct (String.eqb_spec j (json_name c)) as [->|NE]; [apply dget_ddel_same, W2|apply dget_ddel_other, NE].
Qed.

Lemma deprecate_files_total temp l : NoDup l -> (forall c, In c l -> has_char "/" c = false) ->
  (forall c, In c l -> dget (deprecated_path c) temp <> None) ->
  (forall c c', In c l -> In c' l -> json_name c = json_name c' -> c = c') ->
  forall d, dir_ok d -> (forall c, In c l -> dmem c (csvs d) = true /\ dmem (json_name c) (jsons d) = true) ->
  exists d', deprecate_files temp l d = (d', Ok tt).
Proof.
  induction l as [|c l IH]; intros ND SL HT JI d W H; cbn [deprecate_files]; [eauto|].
  destruct (H c (or_introl eq_refl)) as [M MJ]. rewrite M. cbn [negb csvs jsons]. rewrite MJ. cbn [negb].
  unfold copy_file. destruct (dget (deprecated_path c) temp) as [x|] eqn:G; [|destruct (HT c (or_introl eq_refl) G)].
  cbn [csvs jsons]. inversion ND as [|? ? NI ND']; subst. destruct W as [W1 W2].
  apply IH; [exact ND'| | | | |].
  - intros y I. apply SL. right. exact I.
  - intros y I. apply HT. right. exact I.
  - intros y z I I'. apply JI; right; assumption.
  - split; cbn; [apply NoDup_dset, NoDup_ddel, W1|apply NoDup_ddel, W2].
  - intros y I. cbn [csvs jsons]. destruct (H y (or_intror I)) as [Y1 Y2].
    assert (NE : y <> c) by congruence.
    unfold dmem in *. rewrite dget_dset. destruct (String.eqb_spec y (deprecated_path c)) as [E|_].
    + exfalso. assert (X := SL y (or_intror I)). rewrite E, dep_slash in X. discriminate X.
    + rewrite (dget_ddel_other y c _ NE). split; [exact Y1|].
      rewrite dget_ddel_other; [exact Y2|]. intro E. apply NE. apply (JI y c); [right; exact I|left; reflexivity|exact E].
Qed.

(** *** compiling *)
Lemma compile_files_csvs F l : forall d d' r, compile_files F l d = (d', r) -> csvs d' = csvs d.
Proof.
  induction l as [|p l IH]; intros d d' r H; cbn [compile_files] in H; [injection H as <- <-; reflexivity|].
  destruct (dget p (csvs d)) as [t|]; [|injection H as <- <-; reflexivity].
  destruct (csv2dict F t) as [cv|e]; [|injection H as <- <-; reflexivity].
  apply IH in H. exact H.
Qed.
Lemma compile_files_dir F l : forall d d' r, compile_files F l d = (d', r) -> dir_ok d -> dir_ok d'.
Proof.
  induction l as [|p l IH]; intros d d' r H W; cbn [compile_files] in H; [injection H as <- <-; exact W|].
  destruct (dget p (csvs d)) as [t|]; [|injection H as <- <-; exact W].
  destruct (csv2dict F t) as [cv|e]; [|injection H as <- <-; exact W].
  apply (IH _ _ _ H). destruct W as [W1 W2]. split; cbn; [exact W1|apply NoDup_dset, W2].
Qed.

Lemma compile_files_Ok F l : forall d d', (forall p q, In p l -> In q l -> json_name p = json_name q -> p = q) ->
  compile_files F l d = (d', Ok tt) ->
  (forall p, In p l -> exists t cv, dget p (csvs d) = Some t /\ csv2dict F t = Ok cv /\ dget (json_name p) (jsons d') = Some cv) /\
  (forall j, (forall p, In p l -> json_name p <> j) -> dget j (jsons d') = dget j (jsons d)).
Proof.
  induction l as [|p l IH]; intros d d' JI H; cbn [compile_files] in H.
  - injection H as <-. split; [intros p []|reflexivity].
  - destruct (dget p (csvs d)) as [t|] eqn:G; [|discriminate H].
    destruct (csv2dict F t) as [cv|e] eqn:C; [|discriminate H].
    apply IH in H; [|intros q q' I I'; apply JI; right; assumption]. destruct H as [H1 H2]. split.
    + intros q [<-|I]; [|apply (H1 q I)].
      destruct (in_dec string_dec p l) as [I|NI]; [apply (H1 p I)|].
      exists t, cv. split; [exact G|]. split; [exact C|]. rewrite H2.
      * cbn. apply dget_dset_same.
      * intros q I E. apply NI. rewrite (JI p q (or_introl eq_refl) (or_intror I) (eq_sym E)). exact I.
    + intros j NJ. rewrite H2; [|intros q I; apply NJ; right; exact I]. cbn.
      apply dget_dset_other. intro E. apply (NJ p (or_introl eq_refl)). symmetry. exact E.
Qed.

Lemma compile_files_total F l : forall d, (forall p, In p l -> exists t cv, dget p (csvs d) = Some t /\ csv2dict F t = Ok cv) ->
  exists d', compile_files F l d = (d', Ok tt).
Proof.
  induction l as [|p l IH]; intros d H; cbn [compile_files]; [eauto|].
  destruct (H p (or_introl eq_refl)) as [t [cv [-> ->]]]. apply IH. intros q I. cbn. apply H. right. exact I.
Qed.

Lemma endswith_csv p : endswith ".csv" p = true -> exists x, p = x +++ ".csv".
Proof. apply RoundFacts.endswith_iff. Qed.

Lemma csv_file_name d p : In p (csv_files d) -> exists x, p = x +++ ".csv".
Proof.
  unfold csv_files. rewrite in_app_iff, !filter_In. unfold dep_csv, top_csv. rewrite !andb_true_iff.
  intros [[_ [[E _] _]]|[_ [P [[E _] _]]]]; [apply endswith_csv, E|].
  apply endswith_csv in E. destruct E as [x E]. apply prefix_spec in P. destruct P as [r ->].
  exists ("deprecated/" +++ x). rewrite sapp_assoc. f_equal. rewrite <- E.
  change 11 with (String.length "deprecated/"). symmetry. apply sdrop_app.
Qed.

Lemma csv_files_inj d p q : In p (csv_files d) -> In q (csv_files d) -> json_name p = json_name q -> p = q.
Proof.
  intros I J E. destruct (csv_file_name d p I) as [x ->]. destruct (csv_file_name d q J) as [y ->]. apply json_inj, E.
Qed.

(** ** The whole update *)
Definition accepted (assume_yes : bool) (response : string) : Prop := assume_yes = true \/ response = "y".

Lemma accepted_no_cancel yes resp : accepted yes resp -> negb yes && negb (String.eqb resp "y") = false.
Proof. intros [->| ->]; [reflexivity|]. rewrite String.eqb_refl. apply andb_false_r. Qed.

Lemma update_Ok F Sv yes resp d d' ev : accepted yes resp -> update_conventions F Sv yes resp d = (d', ev, Ok tt) ->
  (p_updated (make_plan Sv d) = false /\ d' = d) \/
  (p_updated (make_plan Sv d) = true /\ apply_plan F (make_plan Sv d) d = (d', Ok tt)).
Proof.
  intros A. unfold update_conventions, carry_out. rewrite (accepted_no_cancel yes resp A).
  destruct (p_updated (make_plan Sv d)) eqn:U.
  - destruct (apply_plan F (make_plan Sv d) d) as [d1 [[]|e]]; intro H; [|discriminate H].
    injection H as <- _. right. auto.
  - intro H. injection H as <- _. left. auto.
Qed.

Lemma apply_Ok F p d d' : apply_plan F p d = (d', Ok tt) ->
  exists d1 d2, copy_files (p_temp p) (p_update p) d = (d1, Ok tt) /\
    deprecate_files (p_temp p) (p_deprecate p) d1 = (d2, Ok tt) /\
    compile_conventions F d2 = (d', Ok tt).
Proof.
  unfold apply_plan. destruct (copy_files _ _ d) as [d1 [[]|e]] eqn:C; [|intro H; discriminate H].
  destruct (deprecate_files _ _ d1) as [d2 [[]|e]] eqn:D; [|intro H; discriminate H].
  intro H. exists d1, d2. auto.
Qed.

Section UPDATE.
Variable F : flt_env.
Variable Sv : server.
Hypothesis WN : well_named Sv.

Lemma listed_slash c : In c (standardized Sv ++ deprecated Sv) -> has_char "/" c = false.
Proof.
  intro I. apply in_app_or in I. destruct (WN c I) as [x [-> [H _]]]. rewrite has_char_app, H. reflexivity.
Qed.

Lemma dep_list_slash d : forall c, In c (p_deprecate (make_plan Sv d)) -> has_char "/" c = false.
Proof. intros c I. apply (pl_dep _ _ _ _ (plan_ok Sv d)) in I. apply listed_slash, I. Qed.

(** content of the csv files after the update *)
Definition after_csv (d : cdir) (q : string) : option string :=
  let p := make_plan Sv d in
  if smem q (p_deprecate p) then None
  else if existsb (fun c => String.eqb q (deprecated_path c)) (p_deprecate p) then dget q (p_temp p)
  else if smem q (p_update p) then dget q (p_temp p)
  else dget q (csvs d).

Lemma update_csv yes resp d d' ev : dir_ok d -> accepted yes resp ->
  update_conventions F Sv yes resp d = (d', ev, Ok tt) -> forall q, dget q (csvs d') = after_csv d q.
Proof.
  intros W A H q. unfold after_csv. destruct (update_Ok _ _ _ _ _ _ _ A H) as [[U ->]|[U AP]].
  - apply (pl_flag _ _ _ _ (plan_ok Sv d)) in U. destruct U as [-> ->]. reflexivity.
  - destruct (apply_Ok _ _ _ _ AP) as [d1 [d2 [H1 [H2 H3]]]].
    rewrite (compile_files_csvs _ _ _ _ _ H3).
    destruct (deprecate_files_Ok _ _ (dep_list_slash d) _ _ (copy_files_dir _ _ _ _ _ H1 W) H2) as [_ [Q _]].
    rewrite Q. destruct (smem q (p_deprecate (make_plan Sv d))); [reflexivity|].
    destruct (existsb _ _); [reflexivity|]. apply (copy_files_Ok _ _ _ _ H1).
Qed.

Lemma update_dir yes resp d d' ev : dir_ok d -> accepted yes resp ->
  update_conventions F Sv yes resp d = (d', ev, Ok tt) -> dir_ok d'.
Proof.
  intros W A H. destruct (update_Ok _ _ _ _ _ _ _ A H) as [[U ->]|[U AP]]; [exact W|].
  destruct (apply_Ok _ _ _ _ AP) as [d1 [d2 [H1 [H2 H3]]]].
  apply (compile_files_dir _ _ _ _ _ H3).
  apply (deprecate_files_Ok _ _ (dep_list_slash d) _ _ (copy_files_dir _ _ _ _ _ H1 W) H2).
Qed.

(** the text [t] is the server's, or was there and differs only in line ends *)
Definition mirrored (c : string) (old : option string) (t : string) : Prop :=
  t = data_of Sv c \/ (old = Some t /\ clean t = data_of Sv c).

Lemma offered_parts c : offered Sv c -> In c (standardized Sv ++ deprecated Sv) /\ excluded c = false.
Proof. intros [I [E1 E2]]. split; [apply in_or_app; exact I|]. unfold excluded. rewrite E1, E2. reflexivity. Qed.

Lemma not_dep_path d c : has_char "/" c = false -> existsb (fun c' => String.eqb c (deprecated_path c')) (p_deprecate (make_plan Sv d)) = false.
Proof.
  intro SL. destruct (existsb _ _) eqn:E; [|reflexivity]. apply existsb_exists in E. destruct E as [c' [_ E]].
  apply String.eqb_eq in E. rewrite E, dep_slash in SL. discriminate SL.
Qed.

Lemma after_std d c : offered Sv c -> In c (standardized Sv) ->
  exists t, after_csv d c = Some t /\ mirrored c (dget c (csvs d)) t.
Proof.
  intros O ST. destruct (offered_parts c O) as [I EX]. assert (P := plan_ok Sv d).
  apply smem_In in ST. unfold after_csv.
  assert (ND : smem c (p_deprecate (make_plan Sv d)) = false).
  { apply smem_false. intro X. apply (pl_dep _ _ _ _ P) in X. destruct X as [_ [_ [X _]]]. congruence. }
  rewrite ND, (not_dep_path d c (listed_slash c I)).
  destruct (smem c (p_update (make_plan Sv d))) eqn:M.
  - apply smem_In in M. destruct (dget c (p_temp (make_plan Sv d))) as [x|] eqn:G; [|destruct (pl_have _ _ _ _ P c M G)].
    exists x. split; [reflexivity|]. left. apply (temp_std Sv d listed_slash c I ST x G).
  - apply smem_false in M. assert (NU : ~ needs_update Sv d c c) by (intro X; apply M, (pl_upd _ _ _ _ P); exists c; auto).
    unfold needs_update, is_file, dmem, differs in NU. destruct (dget c (csvs d)) as [t|] eqn:G.
    + exists t. split; [reflexivity|]. right. split; [reflexivity|].
      destruct (String.eqb_spec (clean t) (data_of Sv c)) as [E|NE]; [exact E|]. exfalso. apply NU. split; [exact EX|]. left. auto.
    + exfalso. apply NU. split; [exact EX|]. left. auto.
Qed.

Lemma after_dep d c : offered Sv c -> ~ In c (standardized Sv) ->
  after_csv d c = None /\
  exists t, after_csv d (deprecated_path c) = Some t /\ mirrored c (dget (deprecated_path c) (csvs d)) t.
Proof.
  intros O ST. destruct (offered_parts c O) as [I EX]. assert (P := plan_ok Sv d).
  apply smem_false in ST.
  assert (DP : smem (deprecated_path c) (p_deprecate (make_plan Sv d)) = false).
  { apply smem_false. intro X. apply dep_list_slash in X. rewrite dep_slash in X. discriminate X. }
  unfold after_csv. rewrite DP, (not_dep_path d c (listed_slash c I)).
  destruct (is_file c d) eqn:IF.
  - assert (ID : In c (p_deprecate (make_plan Sv d))) by (apply (pl_dep _ _ _ _ P); split; [exact I|split; auto]).
    split; [apply smem_In in ID; rewrite ID; reflexivity|].
    assert (EB : (existsb (fun c' => String.eqb (deprecated_path c) (deprecated_path c')) (p_deprecate (make_plan Sv d))) = true)
      by (apply existsb_exists; exists c; split; [exact ID|apply String.eqb_refl]).
    rewrite EB. destruct (dget (deprecated_path c) (p_temp (make_plan Sv d))) as [x|] eqn:G; [|destruct (pl_haved _ _ _ _ P c ID G)].
    exists x. split; [reflexivity|]. left. apply (temp_dep Sv d listed_slash c x G).
  - assert (NI : ~ In c (p_deprecate (make_plan Sv d))).
    { intro X. apply (pl_dep _ _ _ _ P) in X. destruct X as [_ [_ [_ X]]]. congruence. }
    assert (NI' := NI). apply smem_false in NI'. rewrite NI'. split.
    + destruct (smem c (p_update (make_plan Sv d))) eqn:M.
      * exfalso. apply smem_In, (pl_upd _ _ _ _ P) in M. destruct M as [c' [I' [_ [[S' [E _]]|[_ [_ [E _]]]]]]].
        -- subst c'. congruence.
        -- assert (X := listed_slash c I). rewrite E, dep_slash in X. discriminate X.
      * unfold is_file, dmem in IF. destruct (dget c (csvs d)); [discriminate IF|reflexivity].
    + assert (EB : existsb (fun c' => String.eqb (deprecated_path c) (deprecated_path c')) (p_deprecate (make_plan Sv d)) = false).
      { destruct (existsb _ _) eqn:E; [|reflexivity]. apply existsb_exists in E. destruct E as [c' [I' E]].
        apply String.eqb_eq, dep_inj in E. subst c'. destruct (NI I'). }
      rewrite EB. destruct (smem (deprecated_path c) (p_update (make_plan Sv d))) eqn:M.
      * apply smem_In in M. destruct (dget (deprecated_path c) (p_temp (make_plan Sv d))) as [x|] eqn:G; [|destruct (pl_have _ _ _ _ P _ M G)].
        exists x. split; [reflexivity|]. left. apply (temp_dep Sv d listed_slash c x G).
      * apply smem_false in M. assert (NU : ~ needs_update Sv d c (deprecated_path c)) by (intro X; apply M, (pl_upd _ _ _ _ P); exists c; auto).
        unfold needs_update in NU. unfold is_file at 3, dmem, differs in NU. destruct (dget (deprecated_path c) (csvs d)) as [t|] eqn:G.
        -- exists t. split; [reflexivity|]. right. split; [reflexivity|].
           destruct (String.eqb_spec (clean t) (data_of Sv c)) as [E|NE]; [exact E|]. exfalso. apply NU. split; [exact EX|]. right. auto.
        -- exfalso. apply NU. split; [exact EX|]. right. auto.
Qed.

Lemma after_unknown d q : (forall c, offered Sv c -> q <> c /\ q <> deprecated_path c) -> after_csv d q = dget q (csvs d).
Proof.
  intro U. assert (P := plan_ok Sv d). unfold after_csv.
  assert (OF : forall c, In c (standardized Sv ++ deprecated Sv) -> excluded c = false -> offered Sv c).
  { intros c I E. split; [apply in_app_or, I|]. unfold excluded in E. apply orb_false_iff in E. exact E. }
  assert (N1 : smem q (p_deprecate (make_plan Sv d)) = false).
  { apply smem_false. intro X. apply (pl_dep _ _ _ _ P) in X. destruct X as [I [X _]]. destruct (U q (OF q I X)) as [Y _]. apply Y. reflexivity. }
  assert (N2 : existsb (fun c => String.eqb q (deprecated_path c)) (p_deprecate (make_plan Sv d)) = false).
  { destruct (existsb _ _) eqn:E; [|reflexivity]. apply existsb_exists in E. destruct E as [c [I E]]. apply String.eqb_eq in E.
    apply (pl_dep _ _ _ _ P) in I. destruct I as [I [X _]]. destruct (U c (OF c I X)) as [_ Y]. destruct (Y E). }
  assert (N3 : smem q (p_update (make_plan Sv d)) = false).
  { apply smem_false. intro X. apply (pl_upd _ _ _ _ P) in X. destruct X as [c [I [X [[_ [E _]]|[_ [_ [E _]]]]]]]; destruct (U c (OF c I X)) as [Y1 Y2]; auto. }
  rewrite N1, N2, N3. reflexivity.
Qed.

(** json files after an update that changed something *)
Lemma update_json yes resp d d' ev : dir_ok d -> accepted yes resp ->
  update_conventions F Sv yes resp d = (d', ev, Ok tt) -> p_updated (make_plan Sv d) = true ->
  (forall p, In p (csv_files d') -> exists t cv, dget p (csvs d') = Some t /\ csv2dict F t = Ok cv /\ dget (json_name p) (jsons d') = Some cv) /\
  (forall j, (forall p, In p (csv_files d') -> json_name p <> j) ->
     dget j (jsons d') = if existsb (fun c => String.eqb j (json_name c)) (p_deprecate (make_plan Sv d)) then None else dget j (jsons d)).
Proof.
  intros W A H U. destruct (update_Ok _ _ _ _ _ _ _ A H) as [[U' _]|[_ AP]]; [congruence|].
  destruct (apply_Ok _ _ _ _ AP) as [d1 [d2 [H1 [H2 H3]]]]. unfold compile_conventions in H3.
  assert (CS := compile_files_csvs _ _ _ _ _ H3).
  assert (CF : csv_files d' = csv_files d2) by (unfold csv_files; now rewrite CS).
  destruct (compile_files_Ok _ _ _ _ (csv_files_inj d2) H3) as [C1 C2].
  destruct (deprecate_files_Ok _ _ (dep_list_slash d) _ _ (copy_files_dir _ _ _ _ _ H1 W) H2) as [_ [_ J]].
  destruct (copy_files_Ok _ _ _ _ H1) as [J1 _].
  rewrite CF, CS. split; [exact C1|]. intros j N. rewrite (C2 j N), J, J1. reflexivity.
Qed.

Lemma offered_of c : In c (standardized Sv ++ deprecated Sv) -> excluded c = false -> offered Sv c.
Proof. intros I E. split; [apply in_app_or, I|]. unfold excluded in E. apply orb_false_iff in E. exact E. Qed.

Lemma update_succeeds yes resp d : dir_ok d -> accepted yes resp -> NoDup (deprecated Sv) ->
  (forall c, offered Sv c -> ~ In c (standardized Sv) -> dget c (csvs d) <> None -> dget (json_name c) (jsons d) <> None) ->
  (forall c, offered Sv c -> is_ok (csv2dict F (data_of Sv c)) = true) ->
  (forall p t, dget p (csvs d) = Some t -> is_ok (csv2dict F t) = true) ->
  exists d' ev, update_conventions F Sv yes resp d = (d', ev, Ok tt).
Proof.
  intros W A ND HJ HP HD. assert (P := plan_ok Sv d). unfold update_conventions, carry_out. rewrite (accepted_no_cancel yes resp A).
  destruct (p_updated (make_plan Sv d)) eqn:U; [|eauto].
  assert (AP : exists d', apply_plan F (make_plan Sv d) d = (d', Ok tt)).
  { unfold apply_plan. destruct (copy_files_total _ _ (pl_have _ _ _ _ P) d) as [d1 H1]. rewrite H1.
    assert (W1 := copy_files_dir _ _ _ _ _ H1 W). destruct (copy_files_Ok _ _ _ _ H1) as [J1 Q1].
    assert (DEP : exists d2, deprecate_files (p_temp (make_plan Sv d)) (p_deprecate (make_plan Sv d)) d1 = (d2, Ok tt)).
    { apply deprecate_files_total; [| | | |exact W1|].
      - apply (pl_nd _ _ _ _ P). rewrite filter_app.
        assert (E : filter (fun c => negb (smem c (standardized Sv))) (standardized Sv) = []).
        { assert (G : forall l, (forall x, In x l -> In x (standardized Sv)) -> filter (fun c => negb (smem c (standardized Sv))) l = []).
          { induction l as [|x l IH]; intro H; [reflexivity|]. cbn [filter]. rewrite (proj2 (smem_In x _) (H x (or_introl eq_refl))). cbn [negb].
            apply IH. intros y I. apply H. right. exact I. }
          apply G. auto. }
        rewrite E. apply NoDup_filter, ND.
      - apply dep_list_slash.
      - apply (pl_haved _ _ _ _ P).
      - intros c c' I I' E. apply (pl_dep _ _ _ _ P) in I, I'. destruct I as [I _], I' as [I' _].
        apply in_app_or, WN in I. apply in_app_or, WN in I'. destruct I as [x [-> _]], I' as [y [-> _]]. apply json_inj, E.
      - intros c I. assert (IU := I). apply (pl_dep _ _ _ _ P) in IU. destruct IU as [IL [EX [ST IF]]]. unfold dmem. rewrite Q1, J1. split.
        + destruct (smem c (p_update (make_plan Sv d))) eqn:M; [|exact IF]. apply smem_In in M.
          destruct (dget c (p_temp (make_plan Sv d))) eqn:G; [reflexivity|]. destruct (pl_have _ _ _ _ P c M G).
        + apply smem_false in ST. assert (X := HJ c (offered_of c IL EX) ST). unfold is_file, dmem in IF.
          destruct (dget c (csvs d)); [|discriminate IF]. destruct (dget (json_name c) (jsons d)); [reflexivity|].
          exfalso. apply X; [discriminate|reflexivity]. }
    destruct DEP as [d2 H2]. rewrite H2.
    destruct (deprecate_files_Ok _ _ (dep_list_slash d) _ _ W1 H2) as [_ [Q2 _]].
    apply compile_files_total. intros p I.
    assert (K : In p (dkeys (csvs d2))) by (unfold csv_files in I; rewrite in_app_iff, !filter_In in I; tauto).
    apply dget_Some_In in K. destruct K as [t G]. exists t.
    assert (OKT : forall x, dget p (p_temp (make_plan Sv d)) = Some x -> is_ok (csv2dict F x) = true).
    { intros x GT. destruct (pl_temp _ _ _ _ P p x GT) as [c [IC [EX [-> _]]]]. apply HP, offered_of; assumption. }
    assert (OK : is_ok (csv2dict F t) = true).
    { rewrite Q2 in G. destruct (smem p (p_deprecate (make_plan Sv d))); [discriminate G|].
      destruct (existsb _ _); [apply OKT, G|]. rewrite Q1 in G. destruct (smem p (p_update (make_plan Sv d))); [apply OKT, G|].
      apply (HD p t G). }
    destruct (csv2dict F t) as [cv|e]; [|discriminate OK]. exists cv. auto. }
  destruct AP as [d' ->]. eauto.
Qed.
End UPDATE.
