(** The protection is kept by all operations that do not switch it off. *)
From Verif Require Import Base PyStr PyNum NdArray Sofa Verify Upgrade SpecAttr SpecInit
  BaseFacts StrFacts AttrFacts OpFacts InitFacts.
From Coq Require Import RelationClasses.
Open Scope string_scope.
Open Scope list_scope.

Definition kprot (o o' : sofa) : Prop := prot o = true -> prot o' = true.
Global Instance kprot_refl : Reflexive kprot.
Proof. intros o H; exact H. Qed.
Global Instance kprot_trans : Transitive kprot.
Proof. intros a b c H1 H2 H; auto. Qed.

Lemma kprot_true : always kprot (set_protected true).
Proof. intros o _. reflexivity. Qed.

Lemma kprot_dims : always kprot verify_dims.
Proof.
  intros o _. unfold verify_dims, bind, modify, get, lift.
  destruct (detect _) as [s [u|e]]; [|reflexivity].
  destruct (check_shapes _ _ _ _ _) as [d r]. reflexivity.
Qed.

Lemma kprot_issues w e h : always kprot (handle_issues w e h).
Proof.
  unfold handle_issues.
  repeat (apply always_bind;
    [typeclasses eauto
    | apply always_when; [typeclasses eauto |
        first [apply always_emit | apply always_raise]; typeclasses eauto]
    | intros _]).
  apply always_ret; typeclasses eauto.
Qed.

Ltac alk := first
  [ apply kprot_issues
  | apply kprot_dims
  | apply kprot_true
  | apply always_ret; typeclasses eauto
  | apply always_raise; typeclasses eauto
  | apply always_get; typeclasses eauto
  | apply always_emit; typeclasses eauto
  | apply always_lift; typeclasses eauto
  | apply always_bind; [typeclasses eauto | |] ].
Ltac alks := repeat (intros; alk).

Lemma set_attr_fine k v o :
  clean_key k -> is_ok (normalize v) = true -> prot o = false ->
  exists w, set_attr k v o = (with_pub o (dset k w (pub o)), [], Ok tt).
Proof.
  intros [C1 [C2 C3]] HN P. unfold set_attr. rewrite C1, P, (eqb_neq_s _ _ C2), (eqb_neq_s _ _ C3).
  cbn. rewrite andb_false_r. destruct (normalize v) as [w|]; [|discriminate]. exists w. reflexivity.
Qed.

Lemma kprot_add_defaults l : Forall entry_fine l -> always kprot (add_defaults l).
Proof.
  intro F. unfold add_defaults. apply always_mfor; [typeclasses eauto|typeclasses eauto|].
  intros [k e] Hin o _. rewrite Forall_forall in F. destruct (F _ Hin) as [F1 F2].
  rewrite m_obj_bind. cbn [set_protected modify]. rewrite m_obj_bind. cbn [fst snd].
  destruct (set_attr_fine k (e_default e) (with_prot o false) F1 F2 eq_refl) as [w H].
  rewrite H. reflexivity.
Qed.

Lemma mfor_set_fine l : Forall entry_fine l -> forall o, prot o = false ->
  exists p, mfor l (fun kv : string * entry => set_attr (fst kv) (e_default (snd kv))) o
            = (with_pub o p, [], Ok tt).
Proof.
  induction l as [|[k e] l IH]; intros F o P; cbn [mfor].
  - exists (pub o). destruct o; reflexivity.
  - inversion F as [|? ? [F1 F2] F3]; subst. cbn [fst snd] in *.
    destruct (set_attr_fine k (e_default e) o F1 F2 P) as [w H].
    destruct (IH F3 (with_pub o (dset k w (pub o))) P) as [p Hp].
    exists p. unfold bind. rewrite H, Hp. reflexivity.
Qed.

(** custom entries can be added with their default *)
Definition tidy (o : sofa) : Prop :=
  forall cu ke, custom o = Some cu -> In ke cu -> entry_fine ke.

Lemma load_tidy E c v cv : db_tidy E -> load_convention E c v = Ok cv -> Forall entry_fine cv.
Proof.
  intros T H. apply load_convention_file in H. destruct H as [f [F1 [_ [-> _]]]].
  apply Forall_forall. intros ke Hin. eapply T; eassumption.
Qed.

Lemma dupdate_Forall {A} (P : string * A -> Prop) d c :
  Forall P d -> Forall P c -> Forall P (dupdate d c).
Proof.
  unfold dupdate. revert d. induction c as [|[k v] c IH]; cbn; intros d H1 H2; [exact H1|].
  inversion H2; subst. apply IH; [|assumption].
  rewrite Forall_forall in *. intros x Hx. apply In_dset in Hx. destruct Hx as [->|Hx]; auto.
Qed.

Lemma reset_tidy E o o1 :
  db_tidy E -> tidy o -> reset_convention E o = (o1, [], Ok tt) ->
  tidy o1 /\ Forall entry_fine (conv o1) /\ prot o1 = prot o.
Proof.
  intros D T R.
  destruct (reset_convention_cases E o) as [[e H]|[c [b [v [cv [_ [_ [_ [HL H]]]]]]]]];
    rewrite H in R; inversion R; subst; clear R.
  assert (F := load_tidy _ _ _ _ D HL). unfold tidy in *.
  destruct (custom o) as [cu|] eqn:EC; cbn.
  - assert (FC : Forall entry_fine (keep_custom cv cu)).
    { apply Forall_forall. intros ke Hin. apply filter_In in Hin. destruct Hin as [Hin _].
      eapply T; [reflexivity|exact Hin]. }
    split; [|split; [apply dupdate_Forall; assumption|reflexivity]].
    intros cu' ke Hcu Hin. inversion Hcu; subst. rewrite Forall_forall in FC. auto.
  - rewrite EC. split; [discriminate|]. split; [exact F|reflexivity].
Qed.

Lemma verify_rest_kprot norm E h m o :
  Forall entry_fine (conv o) -> kprot o (m_obj (verify_rest norm E h m o)).
Proof.
  intro F. unfold verify_rest.
  apply rel_bind; [typeclasses eauto | reflexivity |].
  intros o' o1 e1 H. inversion H; subst. clear H.
  apply rel_bind; [typeclasses eauto | |].
  - destruct (h_raise h); cbn [negb when]; [reflexivity|].
    apply kprot_add_defaults. unfold missing. rewrite Forall_forall in *.
    intros x Hx. apply filter_In in Hx. apply F. tauto.
  - intros u o2 e2 _.
    set (keys := dkeys _). set (miss := missing _). clearbody keys miss. clear.
    revert o2.
    match goal with |- forall o5, kprot _ (m_obj (?m o5)) => change (always kprot m) end.
    alk; [alk|intro o3]. alk; [alk|intro terr].
    destruct (negb _ && negb _).
    + alks.
    + alk; [alk|intro o4]. alk; [alk|intro nerr].
      alk; [destruct (custom o4)|intro cerr].
      * alk; [alk|intro c]. alk; [alk|intro v].
        destruct (norm c v) as [ev r].
        alk; [|intros _]; [apply always_mfor; [typeclasses eauto|typeclasses eauto|intros; alk]|].
        alks.
      * alk.
      * alk; [alk|intro serr]. alk; [alk|intro o5].
        alk; [alk|intro rerr]. alk; [alk|intro uerr]. alk; [alk|intro dmsg].
        alk; [alk|intro pmsg].
        destruct (h_ignore h); alks.
Qed.

Lemma verify_kprot E h m o :
  db_tidy E -> tidy o -> kprot o (m_obj (verify E h m o)).
Proof.
  intros D T. unfold verify.
  destruct (verify_gen_obj (normative_keys E) E h m o) as [[H _]|[o1 [H1 [H2 _]]]].
  - rewrite H. reflexivity.
  - rewrite H2. destruct (reset_tidy _ _ _ D T H1) as [_ [F P]].
    intro PT. apply verify_rest_kprot; [exact F | congruence].
Qed.

Lemma kprot_bind {A B} (m : M A) (f : A -> M B) o :
  kprot o (m_obj (m o)) -> (forall a, always kprot (f a)) -> kprot o (m_obj (bind m f o)).
Proof.
  intros H1 H2. apply rel_bind; [typeclasses eauto | exact H1 |]. intros; apply H2.
Qed.

Lemma update_dimensions_kprot {A} E (f : unit -> M A) o :
  db_tidy E -> tidy o -> (forall a, always kprot (f a)) ->
  kprot o (m_obj (bind (update_dimensions E) f o)).
Proof.
  intros D T H. apply kprot_bind; [|exact H].
  unfold update_dimensions. apply kprot_bind; [apply verify_kprot; assumption|].
  intros i. alk; [alk|intro o1].
  destruct i; [|alk]. destruct (_ || _ || _); alk.
Qed.

Lemma step_kprot E o p :
  db_tidy E -> tidy o -> safe_op p -> prot o = true -> prot (step E o p) = true.
Proof.
  intros D T S P. unfold step.
  destruct p as [name val|name|name val t d|name val|a b q|h m|d|  |h|w|]; cbn [run_op].
  - destruct (set_attr_cases name val o) as [[e H]|[[bb [H1 [H2 H]]]|[w [_ [_ [H _]]]]]];
      rewrite H; unfold m_obj; cbn; try exact P.
    cbn in S. destruct S as [S|S]; [contradiction|]. congruence.
  - destruct (del_attr_cases name o) as [[e H]|[_ [_ [_ H]]]]; rewrite H; exact P.
  - cbn in S. destruct S as [S1 S2]. unfold add_variable.
    destruct (add_entry_cases name val t d o) as [[e [H _]]|[H1 [ev [o' [r [H2 H]]]]]]; rewrite H;
      [exact P|]. unfold m_obj; cbn [fst]. rewrite add_custom_obj in H2.
    match type of H2 with context [set_attr name val ?x] => set (o2 := x) in H2 end.
    destruct (set_attr_fine name val o2) as [w HS].
    + unfold hasattr in H1. apply orb_false_iff in H1. destruct H1 as [_ H1].
      apply smem_false in H1. split; [exact S1|]. cbn in H1. intuition congruence.
    + exact S2.
    + unfold o2. destruct (dmem name (conv o)); reflexivity.
    + rewrite HS in H2. inversion H2; reflexivity.
  - cbn in S. destruct S as [S1 S2]. unfold add_attribute.
    destruct (add_entry_cases name val "attribute" None o) as [[e [H _]]|[H1 [ev [o' [r [H2 H]]]]]]; rewrite H;
      [exact P|]. unfold m_obj; cbn [fst]. rewrite add_custom_obj in H2.
    match type of H2 with context [set_attr name val ?x] => set (o2 := x) in H2 end.
    destruct (set_attr_fine name val o2) as [w HS].
    + unfold hasattr in H1. apply orb_false_iff in H1. destruct H1 as [_ H1].
      apply smem_false in H1. split; [exact S1|]. cbn in H1. intuition congruence.
    + exact S2.
    + unfold o2. destruct (dmem name (conv o)); reflexivity.
    + rewrite HS in H2. inversion H2; reflexivity.
  - unfold add_missing. rewrite m_obj_bind.
    destruct (reset_convention_cases E o) as [[e H]|[c [bb [v [cv [_ [_ [_ [_ H]]]]]]]]].
    + rewrite H. exact P.
    + destruct (reset_tidy _ _ _ D T H) as [_ [F _]]. rewrite H.
      match goal with |- context [with_conv o] => idtac | _ => idtac end.
      match type of H with _ = (?x, _, _) => set (o1 := x) in * end. clearbody o1.
      rewrite m_obj_bind. cbn [get]. rewrite m_obj_bind. cbn [set_protected modify].
      rewrite m_obj_bind.
      match goal with |- context [mfor ?l _ (with_prot o1 false)] =>
        assert (FL : Forall entry_fine l);
        [|destruct (mfor_set_fine l FL (with_prot o1 false) eq_refl) as [p Hp]; rewrite Hp]
      end.
      { rewrite Forall_forall in *. intros x Hx. apply filter_In in Hx. apply F. tauto. }
      rewrite m_obj_bind. cbn [set_protected modify]. destruct q; cbn [when]; [|reflexivity].
      destruct (has_char _ _); reflexivity.
  - apply kprot_bind; [apply verify_kprot; assumption|intros; alk|exact P].
  - apply kprot_bind; [unfold get_dimension; apply update_dimensions_kprot; try assumption|intros; alk|exact P].
    intros _. alk; [alk|intro o1]. destruct (api o1) as [a|]; [|alk]. destruct (dget d a); alk.
  - unfold list_dimensions. apply update_dimensions_kprot; try assumption. intros _.
    alk; [alk|intro o1]. alk; [alk|intro dt].
    alk; [destruct dt; alk|intro s]. alk; [alk|intro r]. alk; [alk|intro e].
    alk; [match goal with |- always _ (match ?x with _ => _ end) => destruct x end; alk | intro n].
    destruct (api o1); alk.
  - unfold inspect. apply kprot_bind; [apply verify_kprot; assumption| |exact P]. alks.
  - unfold info. revert P. generalize o.
    match goal with |- forall o5, prot _ = true -> prot (m_obj (?m o5)) = true => change (always kprot m) end.
    alk; [alk|intros _]. alk; [alk|intro o1]. alk; [alk|intro hd].
    destruct (smem _ _); [alks|]. destruct (smem _ _); alks.
  - apply kprot_bind; [|intros; alk|exact P]. unfold upgrade_convention.
    apply kprot_bind; [intros _; rewrite (ds_prot _ _ (reset_data_same E o)); exact P|].
    intros _. alk; [alk|intro o2]. alk; [alk|intro c]. alk; [alk|intro v]. alk; [alk|intros _].
    cbv zeta. destruct (decide E (py_str E c) v None) as [| |t|id|]; alks.
Qed.

Lemma settles_tidy E o o' : db_tidy E -> tidy o -> settles E o o' -> tidy o'.
Proof.
  intros D T [G|[o1 [R G]]].
  - intros cu ke H. rewrite (gr_custom _ _ G) in H. apply T. exact H.
  - destruct (reset_tidy _ _ _ D T R) as [T1 _].
    intros cu ke H. rewrite (gr_custom _ _ G) in H. apply T1. exact H.
Qed.

Lemma add_tidy name val t d o : is_private name = false -> tidy o -> tidy (m_obj (add_entry name val t d o)).
Proof.
  intros S T.
  destruct (add_entry_cases name val t d o) as [[e [H _]]|[H1 [ev [o' [r [H2 H]]]]]]; rewrite H;
    [exact T|]. unfold m_obj; cbn [fst]. rewrite add_custom_obj in H2.
  match type of H2 with context [set_attr name val ?x] => set (o2 := x) in H2 end.
  assert (T2 : tidy o2).
  { unfold o2. destruct (dmem name (conv o)); [exact T|].
    intros cu ke Hcu Hin. cbn in Hcu. inversion Hcu; subst. apply In_dset in Hin.
    destruct Hin as [->|Hin].
    - split; [|reflexivity]. unfold hasattr in H1. apply orb_false_iff in H1. destruct H1 as [_ H1].
      apply smem_false in H1. split; [exact S|]. cbn in *. intuition congruence.
    - destruct (custom o) as [cu|] eqn:EC; [|destruct Hin]. eapply T; [exact EC|exact Hin]. }
  destruct (set_attr_cases name val o2) as [[e K]|[[b [_ [_ K]]]|[w [_ [_ [K _]]]]]];
    rewrite K in H2; inversion H2; subst; exact T2.
Qed.

Lemma step_tidy E o p : db_tidy E -> tidy o -> safe_op p -> tidy (step E o p).
Proof.
  intros D T S. unfold step.
  destruct p as [name val|name|name val t d|name val|a b q|h m|d|  |h|w|]; cbn [run_op].
  - destruct (set_attr_cases name val o) as [[e H]|[[bb [_ [_ H]]]|[w [_ [_ [H _]]]]]];
      rewrite H; exact T.
  - destruct (del_attr_cases name o) as [[e H]|[_ [_ [_ H]]]]; rewrite H; [exact T|].
    intros cu ke Hcu Hin. unfold m_obj in Hcu. cbn in Hcu.
    destruct (custom o) as [c|] eqn:EC; [|discriminate]. cbn in Hcu. inversion Hcu; subst.
    apply In_ddel in Hin. eapply T; [exact EC|exact Hin].
  - apply add_tidy; [apply S|exact T].
  - apply add_tidy; [apply S|exact T].
  - eapply settles_tidy; [exact D|exact T|apply add_missing_settles].
  - eapply settles_tidy; [exact D|exact T|].
    apply settles_bind; [apply verify_settles|intros _; apply always_same_grow; alw].
  - eapply settles_tidy; [exact D|exact T|].
    apply settles_bind; [apply get_dimension_settles|intros _; apply always_same_grow; alw].
  - eapply settles_tidy; [exact D|exact T|apply list_dimensions_settles].
  - eapply settles_tidy; [exact D|exact T|apply inspect_settles].
  - eapply settles_tidy; [exact D|exact T|apply info_settles].
  - eapply settles_tidy; [exact D|exact T|].
    apply settles_bind; [apply ask_upgrade_settles|intros _; apply always_same_grow; alw].
Qed.

Lemma run_app E o a b : run E o (a ++ b) = run E (run E o a) b.
Proof. apply fold_left_app. Qed.

Lemma protected_run_safe E o ops :
  db_tidy E -> tidy o -> prot o = true -> Forall safe_op ops -> protected_run E o ops.
Proof.
  intros D T P F. 
  assert (G : forall l, Forall safe_op l -> forall o, tidy o -> prot o = true -> prot (run E o l) = true).
  { induction l as [|p l IH]; intros Fl o1 T1 P1; [exact P1|].
    inversion Fl; subst. cbn. apply IH; [assumption | apply step_tidy; assumption | apply step_kprot; assumption]. }
  intro n. apply G; try assumption.
  rewrite Forall_forall in *. intros x Hx. apply F.
  rewrite <- (firstn_skipn n ops). apply in_or_app. left; exact Hx.
Qed.

(** read-only mandatory values and mandatory names in a protected history *)
Lemma run_kept E c v cv ops : forall o,
  armed_with E o c v cv -> protected_run E o ops ->
  armed_with E (run E o ops) c v cv /\ kept cv o (run E o ops).
Proof.
  induction ops as [|p ops IH]; intros o A P.
  - cbn. split; [exact A|]. constructor; auto.
  - assert (P0 := P 0). cbn in P0.
    destruct (armed_step E o p c v cv A P0) as [A1 [K1 K2]].
    destruct (IH (step E o p) A1) as [A2 [J1 J2]].
    { intro n. apply (P (S n)). }
    split; [exact A2|]. constructor; cbn; eauto.
Qed.
