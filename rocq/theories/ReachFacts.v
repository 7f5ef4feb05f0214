(** All objects a program can obtain are well-formed. *)
From Verif Require Import Base PyStr PyNum NdArray Sofa Verify Upgrade Io SpecAttr SpecInit SpecVerify SpecUpgrade SpecIo SpecReach
  BaseFacts StrFacts CoreFacts AttrFacts OpFacts InitFacts DictFacts AxisFacts UpgradeFacts IoFacts ReadFacts.
From Coq Require Import Lia.
Open Scope string_scope.
Open Scope list_scope.
Open Scope nat_scope.

(** ** Values *)
Lemma stack_wf l a : (forall b, In b l -> wf_arr b = true) -> stack l = Ok a -> wf_arr a = true.
Proof.
  intros W H. destruct l as [|x t].
  - injection H as <-. reflexivity.
  - unfold stack in H. destruct (forallb _ t) eqn:F; [|discriminate H].
    destruct (promote_all (a_kind x) t) as [k|]; [|discriminate H]. injection H as <-.
    unfold wf_arr. cbn [a_data a_shape]. apply Nat.eqb_eq.
    assert (LE : forall l, (forall b, In b l -> List.length (a_data b) = prod (a_shape x)) ->
      List.length (flat_map (fun b => map (convert k) (a_data b)) l) = List.length l * prod (a_shape x)).
    { induction l as [|y l IH]; intro K; [reflexivity|]. cbn [flat_map List.length].
      rewrite app_length, map_length, IH, (K y) by (auto using in_eq, in_cons). reflexivity. }
    apply (LE (x :: t)). intros b B. assert (WB := W b B). apply Nat.eqb_eq in WB. rewrite WB.
    destruct B as [<-|B]; [reflexivity|]. rewrite forallb_forall in F. specialize (F b B).
    assert (SE : forall s u, shape_eqb s u = true -> s = u).
    { induction s as [|i s IH]; intros [|j u] Q; try discriminate Q; [reflexivity|].
      cbn in Q. apply andb_true_iff in Q. destruct Q as [Q1 Q2]. apply Nat.eqb_eq in Q1. f_equal; auto. }
    rewrite (SE _ _ F). reflexivity.
Qed.

Fixpoint np_array_wf (v : value) (I : input v) {struct I} : forall a, np_array v = Ok a -> wf_arr a = true.
Proof.
  destruct I as [b s|x|a W|l K]; intros r H.
  - injection H as <-. reflexivity.
  - injection H as <-. reflexivity.
  - injection H as <-. exact W.
  - cbn [np_array] in H.
    match type of H with context [rbind (?g l) _] => set (go := g) in H end.
    destruct (go l) as [rs|] eqn:G; [|discriminate H]. cbn [rbind] in H. apply (stack_wf rs r); [|exact H].
    assert (K' : forall v, In v l -> forall a, np_array v = Ok a -> wf_arr a = true)
      by (intros v J; exact (np_array_wf v (K v J))).
    clear H r K. revert rs G K'. induction l as [|x l IH]; intros rs G K' b B.
    + cbn in G. injection G as <-. destruct B.
    + cbn in G. destruct (np_array x) as [ax|] eqn:X; [|discriminate G]. cbn [rbind] in G.
      fold go in G. destruct (go l) as [bs|] eqn:GL; [|discriminate G]. injection G as <-.
      destruct B as [<-|B]; [apply (K' x (or_introl eq_refl)); exact X|].
      apply (IH bs eq_refl); [|exact B]. intros v J. apply K'. right. exact J.
Qed.

Lemma prod_atleast_2d s : prod (sh_atleast_2d s) = prod s.
Proof. destruct s as [|n [|m s]]; cbn; lia. Qed.

Lemma scalar_plain e : plain_value (scalar_value e).
Proof. destruct e; cbn; try exact I; intro Q; discriminate Q. Qed.

Lemma normalize_plain v w : input v -> normalize v = Ok w -> plain_value w.
Proof.
  intros I H. assert (J := np_array_wf v I). destruct v as [b s|x|a|l].
  - injection H as <-. exact Logic.I.
  - cbn in H. injection H as <-. apply scalar_plain.
  - injection H as <-. inversion I; subst. assumption.
  - unfold normalize in H. apply rbind_Ok in H. destruct H as [a [A H]]. specialize (J a A). cbv zeta in H.
    destruct (a_size _ =? 1).
    + destruct (a_data _) as [|e d]; [discriminate H|]. injection H as <-. apply scalar_plain.
    + injection H as <-. cbn. unfold wf_arr in *. cbn [a_data a_shape reshape]. rewrite prod_atleast_2d. exact J.
Qed.

Lemma plain_input v : plain_value v -> input v.
Proof. destruct v as [b s|x|a|l]; intro P; [apply in_str|apply in_scal|apply in_arr; exact P|destruct P]. Qed.

(** ** Invariants of programs *)
Definition inv {A} (P : sofa -> Prop) (m : M A) : Prop := forall o, P o -> P (m_obj (m o)).

Section Inv.
Variable P : sofa -> Prop.
Lemma inv_bind {A B} (m : M A) (f : A -> M B) : inv P m -> (forall a, inv P (f a)) -> inv P (bind m f).
Proof.
  intros H K o PO. rewrite m_obj_bind. specialize (H o PO). destruct (m o) as [[o1 e1] [a|e]]; [apply K; exact H|exact H].
Qed.
Lemma inv_get {B} (f : sofa -> M B) : (forall x, P x -> inv P (f x)) -> inv P (bind get f).
Proof. intros K o PO. rewrite m_obj_bind. apply (K o PO o PO). Qed.
Lemma inv_lift {A B} (r : res A) (f : A -> M B) : (forall a, r = Ok a -> inv P (f a)) -> inv P (bind (lift r) f).
Proof. intros K o PO. rewrite m_obj_bind. unfold lift. destruct r as [a|e]; [apply (K a eq_refl o PO)|exact PO]. Qed.
Lemma inv_ret {A} (a : A) : inv P (ret a).
Proof. intros o PO. exact PO. Qed.
Lemma inv_raise {A} e : inv P (raise e : M A).
Proof. intros o PO. exact PO. Qed.
Lemma inv_emit e : inv P (emit e).
Proof. intros o PO. exact PO. Qed.
Lemma inv_lift1 {A} (r : res A) : inv P (lift r).
Proof. intros o PO. unfold lift. destruct r; exact PO. Qed.
Lemma inv_mfor {A} (l : list A) (f : A -> M unit) : (forall x, In x l -> inv P (f x)) -> inv P (mfor l f).
Proof.
  induction l as [|x l IH]; intro K; [intros o PO; exact PO|]. cbn [mfor]. apply inv_bind.
  - apply K. left. reflexivity.
  - intros _. apply IH. intros y Y. apply K. right. exact Y.
Qed.
Lemma inv_mfold {A B} (f : A -> B -> M B) (l : list A) : (forall x b, In x l -> inv P (f x b)) -> forall b, inv P (mfold f l b).
Proof.
  induction l as [|x l IH]; intros K b; [intros o PO; exact PO|]. cbn [mfold]. apply inv_bind.
  - apply K. left. reflexivity.
  - intros c. apply IH. intros y d Y. apply K. right. exact Y.
Qed.
Lemma inv_when b (m : M unit) : inv P m -> inv P (when b m).
Proof. intro H. destruct b; [exact H|apply inv_ret]. Qed.
End Inv.

(** ** The invariant *)
Definition tame (c : convention) : Prop := forall k e, In (k, e) c -> input (e_default e).

Record whole (o : sofa) : Prop := {
  wh_dicts : dicts_ok o;
  wh_pub : forall k v, In (k, v) (pub o) -> plain_value v /\ is_private k = false /\ k <> "protected";
  wh_conv : tame (conv o);
  wh_custom : forall c, custom o = Some c -> tame c;
  wh_flags : forall c k e, custom o = Some c -> In (k, e) c -> is_mandatory (e_flags e) = false /\ k <> "protected" }.

Lemma whole_sound o : whole o -> sound o.
Proof.
  intros [D W _ _ F]. split; [exact D| | |exact F].
  - intros k v G. apply dget_In in G. apply (W k v G).
  - intros k G. apply dget_Some_In in G. destruct G as [v G]. apply dget_In in G. apply (W k v G).
Qed.

Lemma whole_same o o' : same o o' -> whole o -> whole o'.
Proof.
  intros [S1 S2 S3 S4] [D W C U F]. split.
  - unfold dicts_ok in *. rewrite S1, S3. exact D.
  - rewrite S1. exact W.
  - rewrite S2. exact C.
  - rewrite S3. exact U.
  - rewrite S3. exact F.
Qed.
Lemma inv_same {A} (m : M A) : always same m -> inv whole m.
Proof. intros H o. apply whole_same. apply H. Qed.

Lemma whole_set k v : input v -> inv whole (set_attr k v).
Proof.
  intros I o W. assert (KD := kdict_set_attr k v o (wh_dicts o W)).
  unfold set_attr in *. destruct (is_private k || String.eqb k "list_dimensions") eqn:PR; [exact W|].
  destruct (prot o && negb (hasattr o k)); [exact W|]. destruct (in_ro k (ro o) && prot o); [exact W|].
  destruct (String.eqb_spec k "protected") as [->|N].
  { destruct v as [b s|x|a|l]; try exact W. destruct x; try exact W. destruct W as [D W C U F]; split; assumption. }
  destruct (normalize v) as [w|e] eqn:NV; [|exact W]. destruct W as [D W C U F]. split; [exact KD| |exact C|exact U|exact F].
  intros j u J. cbn in J. apply In_dset in J. destruct J as [J|J]; [|apply (W j u J)].
  injection J as -> ->. split; [apply (normalize_plain v w I NV)|]. apply orb_false_iff in PR. split; [apply PR|exact N].
Qed.

Lemma whole_del k : inv whole (del_attr k).
Proof.
  intros o W. assert (KD := kdict_del_attr k o (wh_dicts o W)).
  destruct (del_attr_cases k o) as [[e H]|[_ [_ [_ H]]]]; rewrite H in *; [exact W|].
  destruct W as [D W C U F]. split; [exact KD| |exact C| |].
  - intros j u J. cbn in J. apply In_ddel in J. apply (W j u J).
  - intros c Q. cbn in Q. destruct (custom o) as [cu|]; [|discriminate Q]. injection Q as <-.
    intros j e J. apply In_ddel in J. apply (U cu eq_refl j e J).
  - intros c j e Q J. cbn in Q. destruct (custom o) as [cu|]; [|discriminate Q]. injection Q as <-.
    apply In_ddel in J. apply (F cu j e eq_refl J).
Qed.

Lemma fold_dset_In {A} (g : string -> string) (l : dict A) : forall acc k x,
  In (k, x) (fold_left (fun acc kv => dset (g (fst kv)) (snd kv) acc) l acc) ->
  In (k, x) acc \/ exists j, In (j, x) l.
Proof.
  induction l as [|[j y] l IH]; intros acc k x H; [left; exact H|]. cbn [fold_left fst snd] in H.
  destruct (IH _ _ _ H) as [J|[i J]]; [|right; exists i; right; exact J].
  apply In_dset in J. destruct J as [J|J]; [|left; exact J]. injection J as _ ->. right. exists j. left. reflexivity.
Qed.

Lemma rename_In {A} c (d : dict A) k x : In (k, x) (rename_keys c d) -> exists j, In (j, x) d.
Proof. intro H. apply fold_dset_In in H. destruct H as [[]|H]. exact H. Qed.

Lemma load_tame E c v cv : defaults_ok E -> load_convention E c v = Ok cv -> tame cv.
Proof.
  intros D H k e K. apply load_convention_file in H. destruct H as [f [F [_ [-> _]]]].
  unfold sofar_keys in K. apply rename_In in K. destruct K as [j K]. apply rename_In in K. destruct K as [i K].
  apply (D f i e F K).
Qed.

Lemma whole_reset E : defaults_ok E -> inv whole (reset_convention E).
Proof.
  intros DE o W. assert (KD := kdict_reset E o (wh_dicts o W)).
  destruct (reset_convention_cases E o) as [[e H]|[c [b [v [cv [_ [_ [_ [L H]]]]]]]]]; rewrite H in *; [exact W|].
  apply (load_tame E _ _ _ DE) in L. destruct W as [D W C U F]. destruct (custom o) as [cu|] eqn:CU.
  - assert (T : tame (keep_custom cv cu)).
    { intros k e K. unfold keep_custom in K. apply filter_In in K. apply (U cu eq_refl k e (proj1 K)). }
    split; [exact KD|exact W| | |].
    + intros k e K. cbn in K. unfold dupdate in K. apply (fold_dset_In (fun x => x)) in K.
      destruct K as [K|[j K]]; [apply (L k e K)|apply (T j e K)].
    + intros c' Q. cbn in Q. injection Q as <-. exact T.
    + intros c' k e Q K. cbn in Q. injection Q as <-. unfold keep_custom in K. apply filter_In in K.
      apply (F cu k e eq_refl (proj1 K)).
  - split; [exact KD|exact W|exact L| |]; [intros c' Q|intros c' k e Q _]; cbn in Q; rewrite CU in Q; discriminate Q.
Qed.

Lemma whole_prot b : inv whole (set_protected b).
Proof. apply inv_same, same_set_protected. Qed.

Ltac ivs := repeat (intros; cbv beta zeta; lazymatch goal with
  | |- inv _ (bind get _) => apply inv_get
  | |- inv _ (bind (lift _) _) => apply inv_lift
  | |- inv _ (bind _ _) => apply inv_bind
  | |- inv _ (mfor _ _) => apply inv_mfor
  | |- inv _ (when _ _) => apply inv_when
  | |- inv _ (ret _) => apply inv_ret
  | |- inv _ (raise _) => apply inv_raise
  | |- inv _ (emit _) => apply inv_emit
  | |- inv _ (lift _) => apply inv_lift1
  | |- inv _ (set_protected _) => apply whole_prot
  | |- inv _ (del_attr _) => apply whole_del
  | |- inv _ (reset_convention _) => apply whole_reset; assumption
  | |- inv _ (handle_issues _ _ _) => apply inv_same, same_handle_issues
  | |- inv _ verify_dims => apply inv_same, same_verify_dims
  | |- inv _ (match ?x with _ => _ end) => destruct x
  end).

Lemma whole_defaults E l : defaults_ok E -> tame l -> inv whole (add_defaults l).
Proof. intros DE T. unfold add_defaults. ivs. destruct x as [k e]. apply whole_set. apply (T k e). assumption. Qed.

Lemma missing_tame o : whole o -> tame (missing o).
Proof. intros W k e K. unfold missing in K. apply filter_In in K. apply (wh_conv o W k e (proj1 K)). Qed.

Lemma whole_verify_gen norm E h m : defaults_ok E -> inv whole (verify_gen norm E h m).
Proof.
  intro DE. unfold verify_gen. ivs. apply (whole_defaults E); [exact DE|]. apply missing_tame. assumption.
Qed.
Lemma whole_verify E h m : defaults_ok E -> inv whole (verify E h m).
Proof. exact (whole_verify_gen (normative_keys E) E h m). Qed.

Lemma whole_update_dimensions E : defaults_ok E -> inv whole (update_dimensions E).
Proof. intro DE. unfold update_dimensions. apply inv_bind; [apply whole_verify; exact DE|]. ivs. Qed.

Lemma whole_add_missing E a b c : defaults_ok E -> inv whole (add_missing E a b c).
Proof.
  intro DE. unfold add_missing. ivs. intros [k e] K. apply filter_In in K. apply whole_set.
  eapply wh_conv; [eassumption|exact (proj1 K)].
Qed.

Lemma whole_custom k v d t : input v -> k <> "protected" -> inv whole (add_custom_api_entry k v d t).
Proof.
  intros I KP. unfold add_custom_api_entry. apply inv_bind; [apply whole_prot|intros _].
  apply inv_bind; [|intros _; apply inv_bind; [apply whole_set; exact I|intros _; apply whole_prot]].
  intros o W. unfold modify, m_obj. cbn [fst]. destruct (dmem k (conv o)); [exact W|].
  destruct W as [D W C U F]. split.
  - destruct D as [D1 D2]. split; [exact D1|]. cbn. apply NoDup_dset. destruct (custom o); [exact D2|constructor].
  - exact W.
  - intros j e J. cbn in J. apply In_dset in J. destruct J as [J|J]; [injection J as _ ->; apply in_scal|apply (C j e J)].
  - intros c Q. cbn in Q. injection Q as <-. intros j e J. apply In_dset in J.
    destruct J as [J|J]; [injection J as _ ->; apply in_scal|]. destruct (custom o) as [cu|]; [apply (U cu eq_refl j e J)|destruct J].
  - intros c j e Q J. cbn in Q. injection Q as <-. apply In_dset in J.
    destruct J as [J|J]; [injection J as -> ->; split; [reflexivity|exact KP]|].
    destruct (custom o) as [cu|]; [apply (F cu j e eq_refl J)|destruct J].
Qed.

Lemma free_name o k : hasattr o k = false -> k <> "protected".
Proof. intros H ->. unfold hasattr in H. apply orb_false_iff in H. destruct H as [_ H]. vm_compute in H. discriminate H. Qed.

Lemma whole_add_entry k v t d : input v -> inv whole (add_entry k v t d).
Proof.
  intros I o W. destruct (add_entry_cases k v t d o) as [[e [H _]]|[HA [ev [o' [r [H K]]]]]]; [rewrite H; exact W|].
  rewrite K. assert (X := whole_custom k v (option_map upper d) t I (free_name o k HA) o W). rewrite H in X. exact X.
Qed.

Lemma get_plain o k v : whole o -> getattr o k = Ok v -> plain_value v \/ dget k (pub o) = None.
Proof.
  intros W H. unfold getattr in H. destruct (dget k (pub o)) as [w|] eqn:G; [|right; reflexivity].
  injection H as <-. left. apply dget_In in G. apply (wh_pub o W k w G).
Qed.

Lemma getattr_plain o k v : whole o -> getattr o k = Ok v -> plain_value v.
Proof.
  intros W H. unfold getattr in H. destruct (dget k (pub o)) as [w|] eqn:G.
  - injection H as <-. apply dget_In in G. apply (wh_pub o W k w G).
  - destruct (smem _ _); discriminate H.
Qed.

Lemma whole_move sm : inv whole (move_entry sm).
Proof.
  unfold move_entry. cbv zeta. apply inv_get. intros x W. apply inv_lift. intros v G.
  apply (getattr_plain _ _ _ W) in G. apply inv_bind; [apply whole_del|intros _].
  destruct (mv_axis (snd sm)) as [ax|].
  - apply inv_lift. intros w H. apply (move_axes_spec v ax w G) in H. apply (moved_plain_value _ _ _ G) in H.
    apply inv_bind; [apply whole_set, plain_input; exact H|]. ivs.
  - intros o PO. rewrite m_obj_bind. cbn [ret]. revert o PO.
    match goal with |- forall o, _ -> whole (m_obj (?m o)) => change (inv whole m) end.
    apply inv_bind; [apply whole_set, plain_input; exact G|]. ivs.
Qed.

Lemma whole_upgrade E t vo : defaults_ok E -> inv whole (upgrade_convention E t vo).
Proof.
  intro DE. unfold upgrade_convention, apply_upgrade. ivs;
    try (apply whole_move); try (apply whole_add_missing; exact DE); try (apply whole_verify; exact DE).
  - intros o W. destruct W as [D W C U F]. split; [exact D|exact W| |exact U|exact F]. cbn.
    match goal with L : load_convention _ _ _ = Ok _ |- _ => apply (load_tame E _ _ _ DE L) end.
  - intros e GG. match goal with L : load_convention _ _ _ = Ok _ |- _ => rename L into LL end.
    apply whole_set. apply (load_tame E _ _ _ DE) in LL. unfold dgetE in GG.
    match type of GG with context [dget ?k ?c] => destruct (dget k c) eqn:GD; [|discriminate GG]; injection GG as <-; apply dget_In in GD end.
    apply (LL _ _ GD).
  - intros x0 _. apply whole_move.
  - unfold remove_entry. ivs.
Qed.

Lemma empty_whole : whole empty_sofa.
Proof.
  split; [split; [constructor|exact I]|intros k v []|intros k e []|intros c Q; discriminate Q|intros c k e Q; discriminate Q].
Qed.

Lemma prod_atleast_nd s n : prod (sh_atleast_nd s n) = prod s.
Proof.
  unfold sh_atleast_nd. cbv zeta. rewrite prod_pad.
  destruct n as [|[|[|n]]]; [reflexivity| | |]; destruct s as [|a [|b [|c s]]]; cbn; lia.
Qed.

Lemma default_input e v : input (e_default e) -> init_default e = Ok v -> input v.
Proof.
  intros J H. unfold init_default in H. destruct (e_default e) as [b s|x|a|l]; try (injection H as <-; exact J).
  destruct (e_dims e) as [d|]; [|discriminate H]. apply rbind_Ok in H. destruct H as [a [A H]]. injection H as <-.
  unfold atleast_nd in A. apply rbind_Ok in A. destruct A as [b [B A]]. injection A as <-.
  apply in_arr. assert (W := np_array_wf _ J b B). unfold wf_arr in *. cbn [a_data a_shape reshape].
  rewrite prod_atleast_nd. exact W.
Qed.

Lemma created_whole E c m v vo ev o : defaults_ok E -> sofa_init E c m v vo = (ev, Ok o) -> whole o.
Proof.
  intros DE. unfold sofa_init. destruct (load_convention E c v) as [cv|e] eqn:L; [|discriminate].
  apply (load_tame E _ _ _ DE) in L.
  assert (K : inv whole (init_body E cv m vo)).
  { unfold init_body. apply inv_bind; [|intros _].
    { intros p [D W C U F]. split; assumption. }
    apply inv_bind.
    { unfold convention_to_sofa. ivs; try (apply whole_set, in_str).
      intros w HW. apply whole_set.
      match goal with K : In ?y (filter _ _) |- _ => apply filter_In in K; destruct y as [k e]; destruct K as [K _] end.
      apply (default_input e w); [|exact HW]. eapply wh_conv; eassumption. }
    ivs. exact (whole_verify_gen _ E HRaise VRead DE). }
  specialize (K empty_sofa empty_whole).
  destruct (init_body E cv m vo empty_sofa) as [[o1 e1] [u|x]]; [|discriminate].
  intro H. injection H as _ <-. exact K.
Qed.

(** ** Reading *)
Lemma first_item_input a v : wf_arr a = true -> a_size a = 1 -> first_item a = Ok v -> input v.
Proof.
  intros W S1 H. unfold first_item in H. unfold wf_arr in W. apply Nat.eqb_eq in W. unfold a_size in S1.
  destruct (a_shape a) as [|n r] eqn:SH; [discriminate H|].
  assert (PR : prod r = 1) by (cbn in S1; apply Nat.eq_mul_1 in S1; apply S1).
  assert (NP : prod (n :: r) = prod r) by (rewrite S1; symmetry; exact PR).
  assert (WR : wf_arr (reshape a r) = true).
  { unfold wf_arr. cbn [a_data a_shape reshape]. apply Nat.eqb_eq. rewrite W. exact NP. }
  destruct r as [|n2 r].
  - destruct (a_data a) as [|e [|e2 d]].
    + injection H as <-. apply in_arr. exact WR.
    + destruct (a_mask a); injection H as <-; [apply in_arr; exact WR|]. destruct e; constructor.
    + injection H as <-. apply in_arr. exact WR.
  - injection H as <-. apply in_arr. exact WR.
Qed.

Lemma format_input k x v : var_wf x -> snd (format_from_netcdf k x) = Ok v -> input v.
Proof.
  intros VW H. unfold format_from_netcdf, var_wf in *.
  assert (OUT : forall a, wf_arr a = true ->
    (if (a_size a =? 1) && negb (smem k data_keys) then first_item a else Ok (VArr a)) = Ok v -> input v).
  { intros a W Q. destruct ((a_size a =? 1) && negb (smem k data_keys)) eqn:C.
    - apply andb_true_iff in C. destruct C as [C _]. apply Nat.eqb_eq in C. apply (first_item_input a v W C Q).
    - injection Q as <-. apply in_arr. exact W. }
  destruct (nv_data x) as [kd fill d|s|]; cbn [snd] in H.
  - apply (OUT _) in H; [exact H|]. unfold wf_arr. cbn [a_data a_shape]. apply Nat.eqb_eq. rewrite map_length. apply VW.
  - apply rbind_Ok in H. destruct H as [a [A H]]. apply (OUT _) in H; [exact H|].
    apply chartostring_Ok in A. destruct A as [r [n [ts [_ [_ [T [-> _]]]]]]]. unfold wf_arr. cbn [a_data a_shape reshape].
    apply Nat.eqb_eq. rewrite map_length. replace (prod (sh_atleast_1d r)) with (prod r) by (destruct r; cbn; lia).
    apply T.
  - discriminate H.
Qed.

Lemma whole_entry k v d t n : input v -> inv whole (read_entry k v d t n).
Proof.
  intro I. unfold read_entry. apply inv_get. intros x _. destruct (hasattr x k) eqn:HA.
  - apply inv_bind; [apply whole_set; exact I|]. ivs.
  - apply inv_bind; [apply whole_custom; [exact I|exact (free_name x k HA)]|]. ivs.
Qed.

Lemma read_attr_Ok ms n v w : read_attr ms n v = Ok w -> w = v.
Proof. unfold read_attr. destruct (smem n ms); intro H; [discriminate H|injection H as <-; reflexivity]. Qed.

Lemma whole_content f : file_sound f -> inv whole (read_content f).
Proof.
  intros [[FA FV FW] IA IV]. unfold read_content. apply inv_bind; [apply whole_prot|intros _].
  apply inv_bind.
  { apply inv_mfold. intros [a v] b K. unfold read_gattr. cbn [fst snd]. apply inv_lift. intros w H.
    apply read_attr_Ok in H. subst w. apply whole_entry. apply (IA a v K). }
  intro n1. apply inv_bind.
  { apply inv_mfold. intros [var x] b K. unfold read_var.
    destruct (existsb _ _); [apply inv_raise|].
    assert (FI := format_input var x). destruct (format_from_netcdf var x) as [ev r].
    apply inv_bind; [ivs|intros _]. apply inv_lift. intros v H.
    apply inv_bind; [apply whole_entry; apply FI; [apply (FV var x K)|exact H]|].
    intro n2. apply inv_mfold. intros [a w] c C. apply filter_In in C. destruct C as [C _]. cbn [fst snd].
    apply inv_lift. intros u U. apply read_attr_Ok in U. subst u. apply whole_entry. apply (IV var x a w K C). }
  ivs.
Qed.

Lemma read_whole E s name vo verbose ev o : defaults_ok E -> disk_sound s ->
  read_sofa E s name vo verbose = (ev, Ok o) -> whole o.
Proof.
  intros DE DS H. apply read_sofa_Ok in H.
  destruct H as [f [c [v [ev0 [o0 [q [ev1 [cu [[p [_ FA]] [_ [_ [_ [SI [RC [ver [_ H6]]]]]]]]]]]]]]]].
  assert (W := whole_content f (DS p f FA) o0 (created_whole _ _ _ _ _ _ _ DE SI)). rewrite RC in W.
  change (m_obj (q, ev1, Ok cu)) with q in W.
  destruct ver; [|subst; exact W]. destruct H6 as [ev2 [r H6]].
  assert (X := whole_verify E HRaise VRead DE q W). rewrite H6 in X. exact X.
Qed.

Lemma netcdf_whole s name ev o : disk_sound s -> read_sofa_as_netcdf s name = (ev, Ok o) -> whole o.
Proof.
  intros DS H. apply read_netcdf_Ok in H. destruct H as [f [cu [[p [_ FA]] RC]]].
  assert (W := whole_content f (DS p f FA) empty_sofa empty_whole). rewrite RC in W. exact W.
Qed.

(** ** All objects *)
Lemma whole_step E o p : defaults_ok E -> op_input p -> whole o -> whole (step E o p).
Proof.
  intros DE OI. unfold step. revert o.
  match goal with |- forall o, _ -> whole (m_obj (?m o)) => change (inv whole m) end.
  destruct p as [name val|name|name val t d|name val|a b q|h m|d|  |h|w|]; cbn [run_op op_input] in *.
  - apply whole_set. exact OI.
  - apply whole_del.
  - apply whole_add_entry. exact OI.
  - apply whole_add_entry. exact OI.
  - apply whole_add_missing. exact DE.
  - apply inv_bind; [apply whole_verify; exact DE|]. ivs.
  - apply inv_bind; [|ivs]. unfold get_dimension. apply inv_bind; [apply whole_update_dimensions; exact DE|]. ivs.
  - unfold list_dimensions. apply inv_bind; [apply whole_update_dimensions; exact DE|]. ivs.
  - unfold inspect. apply inv_bind; [apply whole_verify; exact DE|]. ivs.
  - unfold info. ivs.
  - apply inv_bind; [apply whole_upgrade; exact DE|]. ivs.
Qed.

Lemma whole_prepare E name : defaults_ok E -> inv whole (prepare_write E name).
Proof.
  intro DE. unfold prepare_write. ivs.
  - intros p P. rewrite (warn_version_keeps E p). exact P.
  - apply whole_verify. exact DE.
Qed.

Lemma whole_written E name s : defaults_ok E -> forall o, whole o -> whole (m_obj (snd (write_sofa E name o s))).
Proof.
  intros DE o W. assert (K := whole_prepare E name DE o W). unfold write_sofa. destruct (prepare_write E name o) as [[o' ev] [p|e]]; [|exact K].
  destruct (fs_writable s p); [|exact K]. destruct (write_content E o' empty_file) as [f r]. exact K.
Qed.

(** ** Files *)
Definition winv (w : W) : Prop := forall f, file_sound f -> file_sound (fst (w f)).

Lemma winv_seq a b : winv a -> winv b -> winv (wseq a b).
Proof. intros A B f S0. unfold wseq. specialize (A f S0). destruct (a f) as [g [u|e]]; [apply B; exact A|exact A]. Qed.
Lemma winv_lift {A} (r : res A) k : (forall a, r = Ok a -> winv (k a)) -> winv (wlift r k).
Proof. intros H f S0. unfold wlift. destruct r as [a|e]; [apply (H a eq_refl f S0)|exact S0]. Qed.
Lemma winv_for {A} (l : list A) k : (forall x, In x l -> winv (k x)) -> winv (wfor l k).
Proof.
  induction l as [|x l IH]; intro H; [intros f S0; exact S0|]. cbn [wfor]. apply winv_seq.
  - apply H. left. reflexivity.
  - apply IH. intros y Y. apply H. right. exact Y.
Qed.

Lemma winv_dim d n : winv (create_dim d n).
Proof.
  intros f S0. unfold create_dim. destruct (check_name d); [|exact S0]. destruct (dmem d (nf_dims f)); [exact S0|].
  destruct S0 as [[A B C] I J]. split; [split|exact I|exact J]; assumption.
Qed.

Lemma winv_gattr n t : winv (write_gattr n t).
Proof.
  intros f S0. unfold write_gattr. destruct (check_attr dataset_members n) as [[]|]; [|exact S0].
  destruct S0 as [[A B C] I J]. split; [split| |exact J].
  - intros a v K. cbn in K. apply In_dset in K. destruct K as [K|K]; [injection K as _ ->; exact Logic.I|apply (A a v K)].
  - exact B.
  - exact C.
  - intros a v K. cbn in K. apply In_dset in K. destruct K as [K|K]; [injection K as _ ->; apply in_str|apply (I a v K)].
Qed.

(** files whose variables are those of a sound file or a sound variable *)
Lemma sound_vars f d vs x : file_sound f -> var_wf x ->
  (forall a v, In (a, v) (nv_attrs x) -> attr_wf v /\ input v) ->
  (forall n y, In (n, y) vs -> In (n, y) (nf_vars f) \/ y = x) -> file_sound (NcFile d (nf_attrs f) vs).
Proof.
  intros [[A B C] I J] VX AX H. split; [split|exact I|].
  - exact A.
  - intros n y K. cbn in K. destruct (H n y K) as [Y| ->]; [apply (B n y Y)|exact VX].
  - intros n y a v K L. cbn in K. destruct (H n y K) as [Y| ->]; [apply (C n y a v Y L)|apply (AX a v L)].
  - intros n y a v K L. cbn in K. destruct (H n y K) as [Y| ->]; [apply (J n y a v Y L)|apply (AX a v L)].
Qed.

Lemma winv_vattr var n t : winv (write_vattr var n t).
Proof.
  intros f S0. unfold write_vattr. destruct (check_attr variable_members n) as [[]|]; [|exact S0].
  destruct (dget var (nf_vars f)) as [x|] eqn:G; [|exact S0]. apply dget_In in G. cbn [fst].
  apply (sound_vars f _ _ (NcVar (nv_dims x) (nv_shape x) (nv_data x)
    (dset n (VStr false (remove_nul t)) (nv_attrs x))) S0).
  - exact (fw_vars _ (fo_wf f S0) var x G).
  - intros a v K. cbn in K. apply In_dset in K. destruct K as [K|K].
    + injection K as _ ->. split; [exact I|apply in_str].
    + split; [apply (fw_vattrs _ (fo_wf f S0) var x a v G K)|apply (fo_vattrs f S0 var x a v G K)].
  - intros m y K. apply In_dset in K. destruct K as [K|K]; [injection K as _ ->; right; reflexivity|left; exact K].
Qed.

Lemma unwritten_wf ds b s : var_wf (NcVar ds s (unwritten b (prod s)) []).
Proof.
  unfold var_wf, unwritten. destruct b; cbn [nv_data nv_shape].
  - assert (L : forall l, String.length (string_of_list_ascii l) = List.length l)
      by (induction l as [|c l IH]; [reflexivity|cbn; rewrite IH; reflexivity]).
    rewrite L, repeat_length. reflexivity.
  - split; [right; reflexivity|]. split; [apply repeat_length|]. intros e K. apply repeat_spec in K. subst e. reflexivity.
Qed.

Lemma winv_create n b ds : winv (create_var n b ds).
Proof.
  intros f S0. unfold create_var. destruct (check_name n) as [[]|]; [|exact S0]. destruct (dmem n (nf_vars f)); [exact S0|].
  destruct (rmap _ ds) as [l|e]; [|exact S0]. cbv zeta. cbn [fst].
  apply (sound_vars f _ _ (NcVar ds (map fst l) (unwritten b (prod (map fst l))) []) S0).
  - apply unwritten_wf.
  - intros a v [].
  - intros m y K. apply in_app_or in K. destruct K as [K|[K|[]]]; [left; exact K|injection K as _ <-; right; reflexivity].
Qed.

Lemma fit_prod t s u : fit_shape t s = Ok u -> prod t = prod s.
Proof.
  unfold fit_shape. destruct (shape_eqb t s) eqn:Q.
  - intros _. revert s Q. induction t as [|x t IH]; intros [|y s] Q; try discriminate Q; [reflexivity|].
    cbn in Q. apply andb_true_iff in Q. destruct Q as [Q1 Q2]. apply Nat.eqb_eq in Q1. cbn. rewrite Q1, (IH s Q2). reflexivity.
  - destruct (_ && _); [discriminate|]. destruct (Nat.eqb_spec (prod s) (prod t)) as [P|P]; [intros _; symmetry; exact P|].
    destruct (_ <? _); discriminate.
Qed.

Lemma winv_assign n s d : (forall ds t at_, prod t = prod s -> var_wf (NcVar ds t d at_)) -> winv (assign_var n s d).
Proof.
  intros VW f S0. unfold assign_var. destruct (dget n (nf_vars f)) as [x|] eqn:G; [|exact S0]. apply dget_In in G.
  destruct (let? l := _ in _) as [t|e] eqn:T; [|exact S0]. cbn [fst].
  apply rbind_Ok in T. destruct T as [l [_ T]]. apply rbind_Ok in T. destruct T as [t' [_ T]].
  apply rbind_Ok in T. destruct T as [u [F T]]. injection T as <-. apply fit_prod in F.
  apply (sound_vars f _ _ (NcVar (nv_dims x) t' d (nv_attrs x)) S0).
  - apply VW. exact F.
  - intros a v K. split; [apply (fw_vattrs _ (fo_wf f S0) n x a v G K)|apply (fo_vattrs f S0 n x a v G K)].
  - intros m y K. apply In_dset in K. destruct K as [K|K]; [injection K as _ ->; right; reflexivity|left; exact K].
Qed.

Lemma rmap_len {A B} (g : A -> res B) l : forall r, rmap g l = Ok r -> List.length r = List.length l.
Proof.
  induction l as [|x l IH]; intros r H.
  - injection H as <-. reflexivity.
  - cbn in H. apply rbind_Ok in H. destruct H as [y [_ H]]. apply rbind_Ok in H. destruct H as [ys [Y H]].
    injection H as <-. cbn. rewrite (IH ys Y). reflexivity.
Qed.

Lemma width n s : String.length (fixed_width n s) = n.
Proof.
  unfold fixed_width. generalize (String.length s) as k. intros _.
  assert (L : forall l, String.length (string_of_list_ascii l) = List.length l)
    by (induction l as [|c l IH]; [reflexivity|cbn; rewrite IH; reflexivity]).
  assert (H : forall n u, n <= String.length u -> String.length (stake n u) = n).
  { induction n0 as [|k IH]; intros u U; [reflexivity|]. destruct u as [|c u]; cbn in *; [lia|]. rewrite IH; lia. }
  apply H. assert (AP : forall a b, String.length (a +++ b) = String.length a + String.length b)
    by (induction a as [|c a IH]; intros b; [reflexivity|cbn; rewrite IH; reflexivity]).
  rewrite AP, L, repeat_length. lia.
Qed.

Lemma format_wf v key t d s sh data b : plain_value v -> format_for_netcdf v key t d s = Ok (sh, data, b) ->
  forall ds t' at_, prod t' = prod sh -> var_wf (NcVar ds t' data at_).
Proof.
  intros PV H ds t' at_ P. assert (NW := np_array_wf v (plain_input v PV)). unfold format_for_netcdf in H.
  destruct (String.eqb t "double").
  - apply rbind_Ok in H. destruct H as [a [A H]]. destruct (a_mask a && _); [discriminate H|].
    apply rbind_Ok in H. destruct H as [fs [FS H]]. injection H as <- <- <-.
    unfold atleast_nd in A. apply rbind_Ok in A. destruct A as [a0 [A0 A]]. injection A as <-.
    specialize (NW a0 A0). apply Nat.eqb_eq in NW. cbn [a_shape reshape a_data] in *. rewrite prod_atleast_nd in P.
    unfold var_wf. cbn [nv_data nv_shape]. split; [right; reflexivity|]. split; [rewrite (rmap_len _ _ _ FS); congruence|].
    intros e I. assert (X : forall (m : bool) l r, rmap (if m then fill_f8 else to_f8) l = Ok r -> forall e, In e r -> elt_kind e = KF).
    { clear. intro m. induction l as [|x l IH]; intros r H e I; [injection H as <-; destruct I|].
      cbn in H. apply rbind_Ok in H. destruct H as [y [Y H]]. apply rbind_Ok in H. destruct H as [ys [YS H]]. injection H as <-.
      destruct I as [<-|I]; [|apply (IH ys YS e I)]. destruct m; destruct x; try discriminate Y; injection Y as <-; reflexivity. }
    apply (X _ _ _ FS e I).
  - destruct (String.eqb t "string"); [|discriminate H].
    apply rbind_Ok in H. destruct H as [a [A H]]. apply rbind_Ok in H. destruct H as [l [L H]].
    cbv zeta in H. set (n := if s =? 0 then _ else s) in H. clearbody n. injection H as <- <- <-.
    specialize (NW a A). apply Nat.eqb_eq in NW. unfold var_wf. cbn [nv_data nv_shape]. rewrite P.
    assert (X : String.length (sconcat (fixed_width n) l) = List.length l * n).
    { clear. induction l as [|x l IH]; [reflexivity|]. cbn [sconcat List.length].
      assert (AP : forall a b, String.length (a +++ b) = String.length a + String.length b)
        by (induction a as [|c a IHa]; intros b; [reflexivity|cbn; rewrite IHa; reflexivity]).
      rewrite AP, width, IH. reflexivity. }
    assert (PA : forall x y, prod (x ++ y) = prod x * prod y)
      by (induction x as [|x xs IHx]; intros; cbn in *; [lia|rewrite IHx; lia]).
    rewrite X, PA, prod_atleast_nd, (rmap_len _ _ _ L), NW. cbn. lia.
Qed.

Lemma winv_content E o : whole o -> winv (write_content E o).
Proof.
  intro W. unfold write_content. apply winv_seq; [apply winv_for; intros; apply winv_dim|].
  apply winv_seq; [apply winv_for; intros; apply winv_lift; intros; apply winv_gattr|].
  apply winv_for. intros k _. unfold write_entry. apply winv_lift. intros e _.
  destruct (String.eqb (e_type e) "attribute"); [intros f F; exact F|].
  apply winv_lift. intros v G. apply (getattr_plain _ _ _ W) in G. apply winv_lift. intros d _.
  apply winv_lift. intros s _. apply winv_lift. intros [[sh data] b] FM.
  apply winv_seq; [apply winv_create|]. apply winv_seq; [apply winv_assign; apply (format_wf _ _ _ _ _ _ _ _ G FM)|].
  apply winv_for. intros j _. apply winv_lift. intros w _. apply winv_vattr.
Qed.

Lemma empty_sound : file_sound empty_file.
Proof. split; [split|intros a v []|intros n x a v []]; [intros a v []|intros n x []|intros n x a v []]. Qed.

Lemma disk_written E name s o : defaults_ok E -> disk_sound s -> whole o -> disk_sound (fst (write_sofa E name o s)).
Proof.
  intros DE DS W. destruct (write_sofa_cases E name o s) as [[o' [ev [e ->]]]|[o' [ev [q [f [r [H [_ [WC WS]]]]]]]]]; [exact DS|].
  assert (K := whole_prepare E name DE o W). rewrite H in K. change (m_obj (o', ev, Ok q)) with o' in K.
  assert (F := winv_content E o' K empty_file empty_sound). rewrite WC in F. rewrite WS. cbn [fst] in *.
  intros p g G. unfold fs_set in G. cbn [fs_files] in G. destruct (string_dec p q) as [->|N].
  - rewrite dget_dset_same in G. injection G as <-. exact F.
  - rewrite dget_dset_other in G by exact N. apply (DS p g G).
Qed.

(** ** All programs *)
Lemma world_whole E s os : defaults_ok E -> world E s os -> disk_sound s /\ forall o, In o os -> whole o.
Proof.
  intro DE. induction 1 as [s DS|s os c m v vo ev o _ [DS IH] H|s os name vo verbose ev o _ [DS IH] H|s os name ev o _ [DS IH] H
    |s os o _ [DS IH] I|s pre o post p _ [DS IH] OI|s pre o post t vo _ [DS IH]|s pre o post name _ [DS IH]].
  - split; [exact DS|]. intros o [].
  - split; [exact DS|]. intros p [<-|I]; [apply (created_whole _ _ _ _ _ _ _ DE H)|apply IH; exact I].
  - split; [exact DS|]. intros p [<-|I]; [apply (read_whole _ _ _ _ _ _ _ DE DS H)|apply IH; exact I].
  - split; [exact DS|]. intros p [<-|I]; [apply (netcdf_whole _ _ _ _ DS H)|apply IH; exact I].
  - split; [exact DS|]. intros p [<-|J]; [apply IH; exact I|apply IH; exact J].
  - split; [exact DS|]. intros q Q. apply in_app_or in Q. destruct Q as [Q|[<-|Q]].
    + apply IH. apply in_or_app. left. exact Q.
    + apply (whole_step E o p DE OI). apply IH. apply in_or_app. right. left. reflexivity.
    + apply IH. apply in_or_app. right. right. exact Q.
  - split; [exact DS|]. intros q Q. apply in_app_or in Q. destruct Q as [Q|[<-|Q]].
    + apply IH. apply in_or_app. left. exact Q.
    + apply (whole_upgrade E t vo DE o). apply IH. apply in_or_app. right. left. reflexivity.
    + apply IH. apply in_or_app. right. right. exact Q.
  - assert (WO : whole o) by (apply IH; apply in_or_app; right; left; reflexivity).
    split; [apply (disk_written E name s o DE DS WO)|]. intros q Q. apply in_app_or in Q. destruct Q as [Q|[<-|Q]].
    + apply IH. apply in_or_app. left. exact Q.
    + apply (whole_written E name s DE o WO).
    + apply IH. apply in_or_app. right. right. exact Q.
Qed.
