(** The dictionaries of an object never have duplicate keys. *)
From Verif Require Import Base PyStr PyNum NdArray Sofa Verify Upgrade SpecAttr SpecInit SpecVerify
  BaseFacts StrFacts AttrFacts OpFacts InitFacts ProtFacts.
From Coq Require Import RelationClasses.
Open Scope string_scope.
Open Scope list_scope.

Definition kdict (o o' : sofa) : Prop := dicts_ok o -> dicts_ok o'.
Global Instance kdict_refl : Reflexive kdict.
Proof. intros o H; exact H. Qed.
Global Instance kdict_trans : Transitive kdict.
Proof. intros a b c H1 H2 H; auto. Qed.

Lemma same_kdict o o' : same o o' -> kdict o o'.
Proof. intros S [H1 H2]. unfold dicts_ok. rewrite (sm_pub _ _ S), (sm_custom _ _ S). auto. Qed.
Lemma always_same_kdict {A} (m : M A) : always same m -> always kdict m.
Proof. intros H o. apply same_kdict. apply H. Qed.

Lemma kdict_set_attr k v : always kdict (set_attr k v).
Proof.
  intros o [H1 H2]. destruct (set_attr_cases k v o) as [[e H]|[[bb [_ [_ H]]]|[w [_ [_ [H _]]]]]];
    rewrite H; split; cbn; auto. apply NoDup_dset. exact H1.
Qed.

Lemma kdict_del_attr k : always kdict (del_attr k).
Proof.
  intros o [H1 H2]. destruct (del_attr_cases k o) as [[e H]|[_ [_ [_ H]]]]; rewrite H; split; cbn; auto.
  - apply NoDup_ddel. exact H1.
  - destruct (custom o); cbn; [apply NoDup_ddel|]; exact H2.
Qed.

Lemma kdict_reset E : always kdict (reset_convention E).
Proof.
  intros o [H1 H2].
  destruct (reset_convention_cases E o) as [[e H]|[c [b [v [cv [_ [_ [_ [_ H]]]]]]]]]; rewrite H; [split; auto|].
  destruct (custom o) as [cu|] eqn:CU; split; cbn; auto.
  - apply NoDup_filter_keys. exact H2.
  - rewrite CU. exact H2.
Qed.

Ltac ald := lazymatch goal with
  | |- always _ (bind _ _) => apply always_bind; [typeclasses eauto | |]
  | |- always _ (mfor _ _) => apply always_mfor; [typeclasses eauto|typeclasses eauto|]
  | |- always _ (when _ _) => apply always_when; [typeclasses eauto|]
  | |- always _ (ret _) => apply always_ret; typeclasses eauto
  | |- always _ (raise _) => apply always_raise; typeclasses eauto
  | |- always _ get => apply always_get; typeclasses eauto
  | |- always _ (emit _) => apply always_emit; typeclasses eauto
  | |- always _ (lift _) => apply always_lift; typeclasses eauto
  | |- always _ (set_attr _ _) => apply kdict_set_attr
  | |- always _ (reset_convention _) => apply kdict_reset
  | |- always _ (handle_issues _ _ _) => apply always_same_kdict; apply same_handle_issues
  | |- always _ verify_dims => apply always_same_kdict; apply same_verify_dims
  | |- always _ (set_protected _) => apply always_same_kdict; apply same_set_protected
  | |- always _ (match ?x with _ => _ end) => destruct x
  end.
Ltac alds := repeat (intros; cbv beta zeta; ald).

Lemma kdict_verify_gen norm E h m : always kdict (verify_gen norm E h m).
Proof. unfold verify_gen, add_defaults. alds. Qed.

Lemma kdict_verify E h m : always kdict (verify E h m).
Proof. exact (kdict_verify_gen (normative_keys E) E h m). Qed.

Lemma kdict_update_dimensions E : always kdict (update_dimensions E).
Proof.
  unfold update_dimensions. ald; [apply kdict_verify|]. alds.
Qed.

Lemma kdict_add_entry n v t d : always kdict (add_entry n v t d).
Proof.
  intros o H.
  destruct (add_entry_cases n v t d o) as [[e [K _]]|[H1 [ev [o' [r [H2 K]]]]]]; rewrite K; [exact H|].
  unfold m_obj; cbn [fst]. rewrite add_custom_obj in H2.
  match type of H2 with context [set_attr n v ?x] => set (o2 := x) in H2 end.
  assert (T2 : dicts_ok o2).
  { unfold o2. destruct (dmem n (conv o)); [exact H|]. destruct H as [H3 H4]. split; cbn; [exact H3|].
    apply NoDup_dset. destruct (custom o); [exact H4|constructor]. }
  apply (kdict_set_attr n v) in T2.
  destruct (set_attr n v o2) as [[o3 e3] [u|x]]; inversion H2; subst; exact T2.
Qed.

Lemma step_dicts E o p : dicts_ok o -> dicts_ok (step E o p).
Proof.
  unfold step. apply (fun (K : always kdict (run_op E p)) => K o).
  destruct p as [name val|name|name val t d|name val|a b q|h m|d|  |h|w|]; cbn [run_op].
  - apply kdict_set_attr.
  - apply kdict_del_attr.
  - apply kdict_add_entry.
  - apply kdict_add_entry.
  - unfold add_missing. alds.
  - ald; [apply kdict_verify|]. alds.
  - ald; [|alds]. unfold get_dimension. ald; [apply kdict_update_dimensions|]. alds.
  - unfold list_dimensions. ald; [apply kdict_update_dimensions|]. alds.
  - unfold inspect. ald; [apply kdict_verify|]. alds.
  - unfold info. alds.
  - ald; [|alds]. unfold upgrade_convention. alds.
Qed.

Lemma run_dicts E ops : forall o, dicts_ok o -> dicts_ok (run E o ops).
Proof. induction ops as [|p ops IH]; intros o H; [exact H|]. cbn. apply IH. apply step_dicts. exact H. Qed.

Lemma init_dicts E c m v vo ev o : sofa_init E c m v vo = (ev, Ok o) -> dicts_ok o.
Proof.
  unfold sofa_init. destruct (load_convention E c v) as [cv|e]; [|discriminate].
  assert (K : kdict empty_sofa (m_obj (init_body E cv m vo empty_sofa))).
  { unfold init_body. apply rel_bind; [typeclasses eauto|intro H; exact H|]. intros u o1 e1 _.
    generalize o1. clear.
    match goal with |- forall o5, kdict _ (m_obj (?m o5)) => change (always kdict m) end.
    ald; [unfold convention_to_sofa; alds|intros _]. ald; [ald|intro e]. cbv zeta.
    ald; [alds|intro ver]. ald; [|alds].
    destruct (ver && negb m); [|alds]. ald; [exact (kdict_verify_gen _ E HRaise VRead)|alds]. }
  destruct (init_body E cv m vo empty_sofa) as [[o1 e1] [u|x]]; [|discriminate].
  intro H. inversion H; subst. apply K. split; [constructor|exact I].
Qed.
