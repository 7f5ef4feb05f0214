(** Lemmas about the texts that are prints and the warnings. *)
From Verif Require Import Base PyStr PyNum NdArray Sofa Verify Utils Io
  SpecAttr SpecInit SpecValue SpecVerify SpecEquals SpecIo
  BaseFacts StrFacts AttrFacts OpFacts InitFacts ProtFacts AddDelFacts MissingFacts CoreFacts ValidFacts VerifyFacts
  DictFacts DimFacts IssueFacts UpgradeFacts EqualsFacts WriteFacts ReadFacts IoFacts AgainFacts CsvFacts SpecReport.
From Coq Require Import ZArith Lia.
Open Scope string_scope.
Open Scope list_scope.
Open Scope nat_scope.

Lemma prints_app a b : prints (a ++ b) = prints a ++ prints b.
Proof. induction a as [|[s|s] a IH]; [reflexivity| |]; cbn [app prints]; rewrite IH; reflexivity. Qed.
Lemma warnings_app a b : warnings (a ++ b) = warnings a ++ warnings b.
Proof. induction a as [|[s|s] a IH]; [reflexivity| |]; cbn [app warnings]; rewrite IH; reflexivity. Qed.

(** ** Everything a computation says has the property [P] *)
Definition says {A} (P : event -> Prop) (m : M A) : Prop := forall o, Forall P (m_out (m o)).

Section Says.
Variable P : event -> Prop.
Lemma says_bind {A B} (m : M A) (f : A -> M B) : says P m -> (forall a, says P (f a)) -> says P (bind m f).
Proof.
  intros H1 H2 o. specialize (H1 o). unfold bind. destruct (m o) as [[o1 e1] [a|e]]; [|exact H1].
  specialize (H2 a o1). destruct (f a o1) as [[o2 e2] r]. unfold m_out in *. cbn [fst snd] in *. apply Forall_app. auto.
Qed.
Lemma says_ret {A} (a : A) : says P (ret a). Proof. intro o. constructor. Qed.
Lemma says_get : says P get. Proof. intro o. constructor. Qed.
Lemma says_lift {A} (r : res A) : says P (lift r). Proof. intro o. constructor. Qed.
Lemma says_raise {A} e : says P (@raise A e). Proof. intro o. constructor. Qed.
Lemma says_modify f : says P (modify f). Proof. intro o. constructor. Qed.
Lemma says_emit e : P e -> says P (emit e). Proof. intros H o. constructor; [exact H|constructor]. Qed.
Lemma says_when b (m : M unit) : says P m -> says P (when b m).
Proof. intros H o. destruct b; [apply H|constructor]. Qed.
Lemma says_mfor {A} (l : list A) f : (forall a, In a l -> says P (f a)) -> says P (mfor l f).
Proof.
  induction l as [|a l IH]; intro H; [intro o; constructor|]. cbn [mfor]. apply says_bind.
  - apply H. left. reflexivity.
  - intros _. apply IH. intros x I. apply H. right. exact I.
Qed.
Lemma says_set_attr n v : says P (set_attr n v).
Proof.
  intro o. destruct (set_attr_cases n v o) as [[y S1]|[[bb [_ [_ S1]]]|[w [_ [_ [S1 _]]]]]]; rewrite S1; constructor.
Qed.
Lemma says_reset E : says P (reset_convention E).
Proof.
  intro o. destruct (reset_convention_cases E o) as [[x R]|[c [bb [v [cv [_ [_ [_ [_ R]]]]]]]]]; rewrite R; constructor.
Qed.
Lemma says_dims : says P verify_dims.
Proof. intro o. rewrite verify_dims_eq. destruct (dims_pure o) as [[a d] r]. constructor. Qed.
Lemma says_ok {A} (m : M A) o o' ev r : says P m -> m o = (o', ev, r) -> Forall P ev.
Proof. intros H Q. specialize (H o). rewrite Q in H. exact H. Qed.
End Says.

(** warnings of verify and of the constructor *)
Definition usual (e : event) : Prop :=
  exists w, e = EvWarn w /\ startswith "Writing" w = false /\ startswith "Entry" w = false.

Lemma usual_head w : usual (EvWarn (warn_head +++ w)).
Proof. exists (warn_head +++ w). auto. Qed.

Lemma says_handle w e : says usual (handle_issues (warn_head +++ w) e HRaise).
Proof.
  unfold handle_issues. apply says_bind; [apply says_when, says_emit, usual_head|intros _].
  apply says_bind; [cbn [h_print]; rewrite andb_false_r; apply says_ret|intros _].
  apply says_bind; [apply says_when, says_raise|intros _].
  apply says_bind; [cbn [h_print]; rewrite andb_false_r; apply says_ret|intros _]. apply says_ret.
Qed.

Lemma says_verify_gen norm E m : (forall c v, Forall usual (fst (norm c v))) -> says usual (verify_gen norm E HRaise m).
Proof.
  intro HN. unfold verify_gen. apply says_bind; [apply says_reset|intros _]. apply says_bind; [apply says_get|intro o].
  cbv zeta. apply says_bind; [apply says_ret|intros _]. apply says_bind; [apply says_get|intro o2].
  apply says_bind; [apply says_lift|intro terr]. destruct (negb _ && negb _).
  - apply says_bind; [apply (says_handle "")|intro r; apply says_ret].
  - apply says_bind; [apply says_get|intro o3]. apply says_bind; [apply says_lift|intro nerr].
    apply says_bind.
    { destruct (custom o3); [|apply says_ret]. apply says_bind; [apply says_lift|intro c]. apply says_bind; [apply says_lift|intro v].
      specialize (HN c v). destruct (norm c v) as [ev r]. apply says_bind; [|intros _; apply says_bind; [apply says_lift|intro; apply says_ret]].
      apply says_mfor. intros e I. apply says_emit. cbn [fst] in HN. rewrite Forall_forall in HN. auto. }
    intro cerr. apply says_bind; [apply says_dims|intro serr]. apply says_bind; [apply says_get|intro o4].
    apply says_bind; [apply says_lift|intro rerr]. apply says_bind; [apply says_lift|intro uerr].
    apply says_bind; [apply says_lift|intro dmsg]. apply says_bind; [apply says_lift|intro pmsg].
    cbn [h_ignore]. apply says_bind; [apply says_handle|intro r; apply says_ret].
Qed.

Lemma says_to_sofa E b : says usual (convention_to_sofa E b).
Proof.
  unfold convention_to_sofa. apply says_bind; [apply says_get|intro o].
  apply says_bind; [apply says_mfor; intros kv _; apply says_bind; [apply says_lift|intro v; apply says_set_attr]|intros _].
  repeat (apply says_bind; [first [apply says_set_attr | apply says_modify]|intros _]). apply says_modify.
Qed.

Lemma init_usual E c b version vo : Forall usual (fst (sofa_init E c b version vo)).
Proof.
  unfold sofa_init. destruct (load_convention E c version) as [cv|e]; [|constructor].
  assert (H : says usual (init_body E cv b vo)).
  { unfold init_body. apply says_bind; [apply says_modify|intros _]. apply says_bind; [apply says_to_sofa|intros _].
    apply says_bind; [apply says_lift|intro e]. apply says_bind; [destruct vo; first [apply says_lift | apply says_ret]|intro ver].
    apply says_bind; [|intros _; apply says_modify]. destruct (ver && negb b).
    - apply says_bind; [|intros _; apply says_ret]. apply says_verify_gen. intros; constructor.
    - apply says_bind; [apply says_lift|intro st]. apply says_when, says_emit. eexists. split; [reflexivity|]. split; reflexivity. }
  specialize (H empty_sofa). destruct (init_body E cv b vo empty_sofa) as [[o ev] [u|e]]; exact H.
Qed.

Lemma verify_usual E m : says usual (verify E HRaise m).
Proof.
  unfold verify. apply says_verify_gen. intros c v. unfold normative_keys. destruct c as [b c| | |]; try constructor.
  destruct v as [b2 v| | |]; try constructor. assert (H := init_usual E c false v VAuto).
  destruct (sofa_init E c false v VAuto) as [ev [o|e]]; exact H.
Qed.

Lemma usual_printed l : Forall usual l -> prints l = [].
Proof. induction 1 as [|e l [w [-> _]] _ IH]; [reflexivity|exact IH]. Qed.
Lemma usual_writing l : Forall usual l -> filter (startswith "Writing") (warnings l) = [].
Proof. induction 1 as [|e l [w [-> [W _]]] _ IH]; [reflexivity|]. cbn [warnings filter]. rewrite W. exact IH. Qed.
Lemma usual_entry l : Forall usual l -> filter (startswith "Entry") (warnings l) = [].
Proof. induction 1 as [|e l [w [-> [_ W]]] _ IH]; [reflexivity|]. cbn [warnings filter]. rewrite W. exact IH. Qed.

(** ** Writing *)
Lemma outdated_usual E name o o' ev p : prepare_write E name o = (o', ev, Ok p) ->
  exists ev1 ev2 r u, warn_version E o = (o, ev1, Ok u) /\ verify E HRaise VWrite o = (o', ev2, Ok r) /\ ev = ev1 ++ ev2.
Proof.
  unfold prepare_write. intro H. apply bind_Ok in H. destruct H as [o1 [e1 [q [e2 [H1 [H ->]]]]]].
  unfold lift in H1. injection H1 as <- <- H1.
  apply bind_Ok in H. destruct H as [o2 [e3 [u [e4 [H2 [H ->]]]]]].
  assert (K := warn_version_keeps E o). rewrite H2 in K. cbn in K. subst o2.
  apply bind_Ok in H. destruct H as [o3 [e5 [r [e6 [H3 [H ->]]]]]]. injection H as <- <- _.
  exists e3, e5, r, u. rewrite app_nil_r. auto.
Qed.

Lemma warn_version_Ok E o ev u b c : dget "GLOBAL_SOFAConventions" (pub o) = Some (VStr b c) -> c <> "invalid-value" ->
  warn_version E o = (o, ev, Ok u) ->
  exists ev0 l b1 b2 v w old, sofa_init E c false "latest" VAuto = (ev0, Ok l)
    /\ dget "GLOBAL_SOFAConventionsVersion" (pub l) = Some (VStr b1 w)
    /\ dget "GLOBAL_SOFAConventionsVersion" (pub o) = Some (VStr b2 v)
    /\ version_ltb v w = Ok old /\ ev = ev0 ++ (if old then [EvWarn (outdated_text v)] else []).
Proof.
  intros GC NI H. unfold warn_version in H. rewrite bind_get in H. unfold getattr at 1 in H. rewrite GC, bind_lift in H.
  rewrite (eqb_neq_s _ _ NI) in H. destruct (sofa_init E c false "latest" VAuto) as [ev0 [l|e]] eqn:SI.
  2: { rewrite (bind_does _ _ _ _ _ _ (mfor_emit ev0 o)) in H. rewrite bind_lift_err in H. discriminate H. }
  rewrite (bind_does _ _ _ _ _ _ (mfor_emit ev0 o)) in H. rewrite bind_lift in H.
  unfold getattr in H. destruct (dget "GLOBAL_SOFAConventionsVersion" (pub l)) as [x|] eqn:G1.
  2: { destruct (smem _ class_attrs) in H; rewrite bind_lift_err in H; discriminate H. }
  rewrite bind_lift in H. destruct (dget "GLOBAL_SOFAConventionsVersion" (pub o)) as [y|] eqn:G2.
  2: { destruct (smem _ class_attrs) in H; rewrite bind_lift_err in H; discriminate H. }
  rewrite bind_lift in H. destruct y as [b2 v| | |]; try discriminate H. destruct x as [b1 w| | |]; try discriminate H.
  destruct (version_ltb v w) as [old|e] eqn:VL; [|rewrite bind_lift_err in H; discriminate H].
  rewrite bind_lift in H. exists ev0, l, b1, b2, v, w, old. split; [reflexivity|]. split; [exact G1|].
  split; [first [exact G2|reflexivity]|]. split; [first [exact VL|reflexivity]|]. destruct old; unfold when, emit, ret, m_obj, m_out, m_res in H; cbn [fst snd] in H; injection H as <- _; reflexivity.
Qed.

(** ** equals *)
Lemma equals_quiet a b s : equals a b false s = ([], snd (equals a b true s)).
Proof.
  assert (Q : forall l acc, compare_keys a b false l acc = ([], snd (compare_keys a b true l acc))).
  { induction l as [|k l IH]; intro acc; cbn [compare_keys]; [reflexivity|].
    destruct (compare_key a b k) as [[msg|]|e]; [|apply IH|reflexivity].
    rewrite (IH false). destruct (compare_keys a b true l false) as [ev r]. reflexivity. }
  unfold equals. destruct (select s a) as [ka|e]; [|reflexivity]. destruct (select s b) as [kb|e]; [|reflexivity].
  destruct (negb _); [reflexivity|]. destruct (negb _); [reflexivity|]. apply Q.
Qed.

Definition differs (a b : sofa) (k : string) : bool :=
  match compare_key a b k with Ok (Some _) => true | _ => false end.
Definition message (a b : sofa) (k : string) : string :=
  match compare_key a b k with Ok (Some m) => m | _ => "" end.

Lemma compare_keys_said a b l : forall acc r, snd (compare_keys a b true l acc) = Ok r ->
  fst (compare_keys a b true l acc) = map EvWarn (map (message a b) (filter (differs a b) l))
  /\ forall k, In k l -> exists m, compare_key a b k = Ok m.
Proof.
  induction l as [|k l IH]; intros acc r H; cbn [compare_keys] in *; [split; [reflexivity|intros k []]|].
  destruct (compare_key a b k) as [[msg|]|e] eqn:C; [| |discriminate H].
  - specialize (IH false r). destruct (compare_keys a b true l false) as [ev q]. cbn [fst snd] in *.
    destruct (IH H) as [I1 I2]. split.
    + cbn [filter]. unfold differs at 1. rewrite C. cbn [map]. unfold message at 1. rewrite C. rewrite I1. reflexivity.
    + intros j [<-|J]; [eauto|auto].
  - destruct (IH acc r H) as [I1 I2]. split.
    + cbn [filter]. unfold differs at 1. rewrite C. exact I1.
    + intros j [<-|J]; [eauto|auto].
Qed.

Lemma filter_in_order {A} (f : A -> bool) l : in_order (filter f l) l.
Proof. induction l as [|x l IH]; [constructor|]. cbn [filter]. destruct (f x); [apply io_take|apply io_skip]; exact IH. Qed.
Lemma in_order_trans {A} (l m n : list A) : in_order m n -> in_order l m -> in_order l n.
Proof.
  intro H. revert l. induction H as [|x m n H IH|x m n H IH]; intros l L; [exact L|constructor; auto|].
  inversion L as [|y l' m' L1|y l' m' L1]; subst; [apply io_skip|apply io_take]; auto.
Qed.

Lemma rfilter_in_order {A} (f : A -> res bool) l : forall r, rfilter f l = Ok r -> in_order r l.
Proof.
  induction l as [|x l IH]; intros r H; cbn [rfilter] in H; [injection H as <-; constructor|].
  apply rbind_Ok in H. destruct H as [b [_ H]]. apply rbind_Ok in H. destruct H as [t [H1 H2]].
  injection H2 as <-. destruct b; [apply io_take|apply io_skip]; auto.
Qed.

Lemma select_in_order x s o l : option_of x s -> select s o = Ok l -> in_order l (dkeys (pub o)).
Proof.
  assert (P : in_order (public_keys o) (dkeys (pub o))) by apply filter_in_order.
  intros OX H. apply (in_order_trans _ _ _ P). unfold select in H. destruct s as [s|].
  - destruct (String.eqb (upper s) "GLOBAL"); [injection H as <-; apply filter_in_order|].
    destruct (String.eqb (upper s) "ATTR"); [apply (rfilter_in_order _ _ _ H)|].
    destruct (String.eqb (upper s) "DATE"); [injection H as <-; apply filter_in_order|discriminate H].
  - injection H as <-. clear. induction (public_keys o); [constructor|apply io_take; assumption].
Qed.

Lemma message_tells a b k m : compare_key a b k = Ok (Some m) -> tells a b k m.
Proof.
  unfold compare_key. intro H. apply rbind_Ok in H. destruct H as [x [_ H]]. apply rbind_Ok in H. destruct H as [y [_ H]].
  apply rbind_Ok in H. destruct H as [ta [TA H]]. apply rbind_Ok in H. destruct H as [tb [TB H]].
  assert (A : typed a k ta).
  { unfold entry_type, dgetE in TA. destruct (dget k (conv a)) as [e|] eqn:D; [|discriminate TA].
    injection TA as <-. exists e. auto. }
  assert (B : typed b k tb).
  { unfold entry_type, dgetE in TB. destruct (dget k (conv b)) as [e|] eqn:D; [|discriminate TB].
    injection TB as <-. exists e. auto. }
  destruct (String.eqb_spec ta "attribute") as [A1|A1]; destruct (String.eqb_spec tb "attribute") as [B1|B1]; cbn [andb] in H.
  { subst. apply rbind_Ok in H. destruct H as [r [_ H]]. destruct r; [discriminate H|]. injection H as <-. apply tells_attr; assumption. }
  all: destruct (String.eqb_spec ta "double") as [A2|A2]; destruct (String.eqb_spec tb "double") as [B2|B2]; cbn [andb] in H.
  all: try (exfalso; congruence).
  all: try (apply rbind_Ok in H; destruct H as [p [_ H]]; apply rbind_Ok in H; destruct H as [q [_ H]];
            apply rbind_Ok in H; destruct H as [r [_ H]]; destruct r; [discriminate H|]; injection H as <-;
            subst; apply (tells_var a b k "double" "{key}"); auto; fail).
  all: destruct (String.eqb_spec ta "string") as [A3|A3]; destruct (String.eqb_spec tb "string") as [B3|B3]; cbn [andb] in H.
  all: try (exfalso; congruence).
  all: try (apply rbind_Ok in H; destruct H as [p [_ H]]; apply rbind_Ok in H; destruct H as [q [_ H]];
            apply rbind_Ok in H; destruct H as [r [_ H]]; destruct r; [discriminate H|]; injection H as <-;
            subst; apply (tells_var a b k "string" "{key}"); auto; fail).
  all: injection H as <-; apply tells_types; [exact A|exact B|].
  all: destruct (string_dec ta tb) as [EQ|NE]; [right|left; exact NE]; subst; cbn [In]; intuition congruence.
Qed.

(** ** add_missing *)
Lemma dkeys_new {A} k (v : A) d : ~ In k (dkeys d) -> dkeys (dset k v d) = dkeys d ++ [k].
Proof. intro N. rewrite dkeys_dset. apply smem_false in N. rewrite N. reflexivity. Qed.

Lemma set_loop_keys l : forall o o' ev u,
  mfor l (fun kv : string * entry => set_attr (fst kv) (e_default (snd kv))) o = (o', ev, Ok u) ->
  NoDup (map fst l) -> ~ In "protected" (map fst l) -> (forall k, In k (map fst l) -> ~ In k (dkeys (pub o))) ->
  dkeys (pub o') = dkeys (pub o) ++ map fst l.
Proof.
  induction l as [|[k e] l IH]; intros o o' ev u H ND NP NI.
  - cbn [mfor map] in *. unfold ret in H. injection H as <- _ _. rewrite app_nil_r. reflexivity.
  - cbn [mfor] in H. apply bind_Ok in H. destruct H as [o1 [e1 [a [e2 [H1 [H2 H3]]]]]].
    cbn [fst snd map] in *. inversion ND as [|? ? N1 N2]; subst.
    apply set_attr_Ok in H1; [|intros ->; apply NP; left; reflexivity]. destruct H1 as [w [K1 [K2 K3]]]. subst.
    rewrite (IH _ _ _ _ H2 N2); [|intro C; apply NP; right; exact C|].
    + cbn [pub with_pub]. rewrite dkeys_new; [rewrite <- app_assoc; reflexivity|]. apply NI. left. reflexivity.
    + intros j J. cbn [pub with_pub]. rewrite dkeys_new; [|apply NI; left; reflexivity]. intro C. apply in_app_or in C.
      destruct C as [C|[<-|[]]]; [apply (NI j); [right; exact J|exact C]|contradiction].
Qed.

Lemma fold_lines (cv : convention) (l : dict entry) : (forall ke, In ke l -> dget (fst ke) cv = Some (snd ke)) -> forall acc,
  fold_left (fun acc kv => acc +++ "- " +++ fst kv +++ " (" +++
      (if is_mandatory (e_flags (snd kv)) then "mandatory" else "optional") +++ ")" +++ str1 (ascii_of_nat 10)) l acc
  = acc +++ String.concat "" (map (added_line cv) (map fst l)).
Proof.
  assert (J : forall x m, String.concat "" (x :: m) = x +++ String.concat "" m).
  { intros x m. cbn [String.concat]. destruct m; [cbn [String.concat]; rewrite sapp_nil_r|]; reflexivity. }
  induction l as [|ke l IH]; intros H acc; cbn [fold_left map]; [cbn [String.concat]; rewrite sapp_nil_r; reflexivity|].
  rewrite IH by (intros x X; apply H; right; exact X). rewrite J. unfold added_line at 2.
  rewrite (H ke (or_introl eq_refl)). unfold newline. rewrite !sapp_assoc. reflexivity.
Qed.

Lemma has_dash h cv l : has_char "-" h = false ->
  has_char "-" (h +++ String.concat "" (map (added_line cv) l)) = match l with [] => false | _ => true end.
Proof.
  intro H. rewrite has_char_app, H. destruct l as [|k l]; [reflexivity|]. cbn [map orb]. cbn [String.concat].
  destruct (map (added_line cv) l); [reflexivity|]. rewrite has_char_app. reflexivity.
Qed.

Lemma add_missing_said E m p b o o' ev u : add_missing E m p b o = (o', ev, Ok u) -> ~ In "protected" (dkeys (conv o')) ->
  ev = if b then [EvPrint (added_text (conv o') (added_names o o'))] else [].
Proof.
  intros H NP0. assert (C := add_missing_Ok E m p b o o' ev u H). destruct C as [o1 [R [C [_ _]]]].
  rewrite C in NP0. assert (ND := reset_ok_NoDup _ _ _ _ _ R).
  assert (DS := reset_data_same E o). rewrite R in DS. destruct DS as [D1 _ _]. cbn in D1.
  unfold add_missing in H. rewrite (bind_silent _ _ _ _ _ R) in H. rewrite bind_get in H. cbv zeta in H.
  unfold set_protected at 1 in H. rewrite bind_modify in H. set (l := filter _ (conv o1)) in H.
  assert (NDl : NoDup (map fst l)) by (apply (NoDup_filter_keys _ _ ND)).
  assert (NPl : ~ In "protected" (map fst l)).
  { intro I. apply NP0. rewrite in_map_iff in I. destruct I as [x [X1 X2]].
    apply filter_In in X2. destruct X2 as [X2 _]. unfold dkeys. rewrite in_map_iff. eauto. }
  assert (NI : forall k, In k (map fst l) -> ~ In k (dkeys (pub o1))).
  { intros k K. rewrite in_map_iff in K. destruct K as [x [<- X]]. apply filter_In in X. destruct X as [_ X].
    apply andb_true_iff in X. destruct X as [X _]. apply negb_true_iff, smem_false in X. exact X. }
  apply bind_Ok in H. destruct H as [o4 [e7 [[] [e8 [H7 [H8 ->]]]]]].
  assert (K := set_loop_keys _ _ _ _ _ H7 NDl NPl NI). destruct (set_loop _ _ _ _ _ H7 NDl NPl) as [_ [-> _]].
  cbn [app]. unfold set_protected in H8. rewrite bind_modify in H8.
  assert (AN : added_names o (with_prot o4 true) = map fst l).
  { unfold added_names. cbn [pub with_prot] in *. rewrite K, D1, filter_app.
    replace (filter (fun k => negb (smem k (dkeys (pub o)))) (dkeys (pub o))) with (@nil string).
    - cbn [app]. clear - NI D1. induction (map fst l) as [|k t IH]; [reflexivity|]. cbn [filter].
      assert (N : smem k (dkeys (pub o)) = false) by (apply smem_false; rewrite <- D1; apply NI; left; reflexivity).
      rewrite N. cbn [negb]. f_equal. apply IH. intros j J. apply NI. right. exact J.
    - symmetry. clear. assert (X : forall l, (forall k : string, In k l -> In k (dkeys (pub o))) -> filter (fun k => negb (smem k (dkeys (pub o)))) l = []).
      { induction l as [|k l IH]; intro H; [reflexivity|]. cbn [filter].
        replace (smem k (dkeys (pub o))) with true by (symmetry; apply smem_In, H; left; reflexivity).
        cbn [negb]. apply IH. intros j J. apply H. right. exact J. }
      apply X. auto. }
  assert (FL := fold_lines (conv o1) l).
  rewrite FL in H8; [|intros [k e] I; apply filter_In in I; destruct I as [I _]; apply In_dget; assumption].
  rewrite has_dash in H8 by reflexivity.
  destruct b; unfold when, ret, emit in H8.
  - assert (O' : o' = with_prot o4 true) by (destruct (map fst l); injection H8 as <- _ _; reflexivity).
    assert (X := f_equal (fun r => snd (fst r)) H8). clear H8.
    rewrite O' in *. rewrite AN, C. unfold added_text. rewrite sapp_assoc in X.
    destruct (map fst l); cbn [fst snd] in X; symmetry; exact X.
  - injection H8 as _ <- _. reflexivity.
Qed.

(** ** Reading *)
Lemma enter_new its : forall st, NoDup (map i_name its) -> (forall k, In k (map i_name its) -> ~ In k class_attrs) ->
  snd (snd (enter its st)) = snd (snd st) ++ filter (fun k => negb (dmem k (pub (fst st)))) (map i_name its).
Proof.
  induction its as [|i its IH]; intros st N NC; [cbn; rewrite app_nil_r; reflexivity|].
  cbn [map] in N, NC. inversion N as [|? ? NI N']; subst.
  change (enter (i :: its) st) with (enter its (enter1 st i)).
  rewrite IH by (try exact N'; intros k K; apply NC; right; exact K).
  assert (HA : hasattr (fst st) (i_name i) = dmem (i_name i) (pub (fst st))).
  { unfold hasattr. assert (X := proj2 (smem_false (i_name i) class_attrs) (NC _ (or_introl eq_refl))). rewrite X. apply orb_false_r. }
  assert (F : filter (fun k => negb (dmem k (pub (fst (enter1 st i))))) (map i_name its)
              = filter (fun k => negb (dmem k (pub (fst st)))) (map i_name its)).
  { apply filter_ext_in. intros k K. cbn [enter1 fst entered pub]. unfold dmem. rewrite dget_dset_other; [reflexivity|].
    intros ->. contradiction. }
  rewrite F. cbn [enter1 snd map filter]. rewrite HA. destruct (dmem (i_name i) (pub (fst st))); cbn [negb]; [reflexivity|].
  rewrite <- app_assoc. reflexivity.
Qed.

Lemma read_said E s name vo verbose ev p : read_sofa E s name vo verbose = (ev, Ok p) ->
  exists f c v ev0 o q ev1 cu ev2,
    file_at s name f /\ file_text f "SOFAConventions" = Ok c /\ file_text f "SOFAConventionsVersion" = Ok v
    /\ sofa_init E c false v vo = (ev0, Ok o) /\ read_content f o = (q, ev1, Ok cu) /\ Forall usual ev2
    /\ (p = q \/ exists ev3 r, verify E HRaise VRead q = (p, ev3, Ok r))
    /\ ev = ev0 ++ ev1 ++ (if verbose then match cu with [] => [] | _ => [EvPrint (custom_notice cu)] end else []) ++ ev2.
Proof.
  intro H. unfold read_sofa in H.
  destruct (let? f := open_file s name in _) as [[[f c] v]|e] eqn:I; [|discriminate H].
  apply rbind_Ok in I. destruct I as [f' [I1 I]]. apply rbind_Ok in I. destruct I as [c' [I2 I]].
  apply rbind_Ok in I. destruct I as [v' [I3 I]]. apply rbind_Ok in I. destruct I as [u [I4 I]].
  injection I as -> -> ->.
  destruct (sofa_init E c false v vo) as [ev0 [o|e]] eqn:SI; [|discriminate H].
  unfold prepend in H.
  destruct ((do custom <- read_content f; _) o) as [[p1 e1] [uu|e]] eqn:Q; [|discriminate H].
  cbn [finished fst snd] in H. injection H as <- <-.
  apply bind_Ok in Q. destruct Q as [q [e2 [cu [e3 [Q1 [Q ->]]]]]].
  apply bind_Ok in Q. destruct Q as [q1 [e4 [u1 [e5 [Q2 [Q ->]]]]]].
  assert (W : q1 = q /\ e4 = if verbose then match cu with [] => [] | _ => [EvPrint (custom_notice cu)] end else []).
  { destruct cu as [|k cu]; destruct verbose; cbn [negb andb] in Q2; unfold when, ret, emit in Q2;
      injection Q2 as <- <- _; split; reflexivity. }
  destruct W as [-> ->].
  apply bind_Ok in Q. destruct Q as [q2 [e6 [ver [e7 [Q3 [Q ->]]]]]].
  assert (W : q2 = q /\ e6 = []) by (destruct vo; unfold lift, ret in Q3; injection Q3 as <- <- _; split; reflexivity).
  destruct W as [-> ->].
  exists f, c, v, ev0, o, q, e2, cu, e7.
  split; [apply open_file_Ok; exact I1|]. split; [exact I2|]. split; [exact I3|]. split; [exact SI|].
  split; [exact Q1|].
  assert (U : Forall usual e7 /\ (p1 = q \/ exists ev3 r, verify E HRaise VRead q = (p1, ev3, Ok r))).
  { destruct ver; [|unfold ret in Q; injection Q as <- <- _; split; [constructor|left; reflexivity]].
    unfold verify_read in Q. destruct (verify E HRaise VRead q) as [[p2 e8] [r|e]] eqn:V; [|discriminate Q].
    injection Q as <- <- _. split; [exact (says_ok usual _ _ _ _ _ (verify_usual E VRead) V)|]. right. exists e8, r. reflexivity. }
  destruct U as [U1 U2]. split; [exact U1|]. split; [exact U2|]. cbn [app]. reflexivity.
Qed.

Lemma var_events_said vs : prints (flat_map var_events vs) = []
  /\ warnings (flat_map var_events vs) = map missing_text (map fst (filter (fun nx => has_missing (snd nx)) vs)).
Proof.
  induction vs as [|[n x] vs [I1 I2]]; [split; reflexivity|]. cbn [flat_map]. rewrite prints_app, warnings_app, I1, I2.
  unfold var_events, format_from_netcdf. cbn [fst snd filter]. unfold has_missing at 2. destruct (nv_data x) as [k [e|] d|t|].
  - destruct (existsb (elt_eqb e) d); split; reflexivity.
  - split; reflexivity.
  - split; reflexivity.
  - split; reflexivity.
Qed.

(** names reported by read_sofa and custom data of the object *)
Lemma smem_dmem {A} k (d : dict A) : smem k (dkeys d) = dmem k d.
Proof.
  destruct (smem k (dkeys d)) eqn:S; symmetry.
  - apply smem_In in S. apply dget_Some_In in S. destruct S as [v S]. unfold dmem. rewrite S. reflexivity.
  - apply smem_false in S. unfold dmem. apply dget_None in S. rewrite S. reflexivity.
Qed.

Lemma new_contains E cv p k : new_content E cv false p ->
  dmem k p = smem k (dkeys cv) || smem k (dkeys (creation_entries E)).
Proof.
  intro NC. specialize (NC k). rewrite !smem_dmem. unfold dmem. destruct (dget k (creation_entries E)) as [s|].
  - rewrite NC. rewrite orb_true_r. reflexivity.
  - destruct (dget k cv) as [e|]; [|rewrite NC; reflexivity].
    cbn [negb] in NC. rewrite orb_true_r in NC. destruct NC as [w [-> _]]. reflexivity.
Qed.

Lemma verify_custom E m q p ev r b c v cv : verify E HRaise m q = (p, ev, Ok r) ->
  dget "GLOBAL_SOFAConventions" (pub q) = Some (VStr b c) ->
  (exists b2, dget "GLOBAL_SOFAConventionsVersion" (pub q) = Some (VStr b2 v)) -> load_convention E c v = Ok cv ->
  forall k, dget k cv = None -> dget k (customs p) = dget k (customs q).
Proof.
  intros V GC [b2 GV] L k K. destruct (raise_ok_core _ _ _ _ _ _ V) as [o1 [e1 [w [a [d [R [_ [_ [_ [OD _]]]]]]]]]].
  assert (CU : customs p = customs o1) by (rewrite OD; reflexivity). rewrite CU.
  destruct (reset_convention_cases E q) as [[x R']|[c' [bb [v' [cv' [X1 [X2 [_ [X4 R']]]]]]]]]; rewrite R' in R; [discriminate R|].
  assert (c' = c) by congruence. assert (v' = VStr b2 v) by congruence. subst c' v'. cbn [py_str] in X4.
  assert (cv' = cv) by congruence. subst cv'. unfold customs. destruct (custom q) as [cu|] eqn:CQ; injection R as <-; [|cbn [custom with_conv]; rewrite CQ; reflexivity].
  cbn [custom with_custom]. unfold keep_custom. rewrite (dget_filter (fun j => negb (dmem j cv))).
  unfold dmem. rewrite K. reflexivity.
Qed.
