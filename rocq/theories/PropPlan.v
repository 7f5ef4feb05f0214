(** update_conventions announces exactly what it is going to change (C81). *)
From Verif Require Import Base PyStr NdArray Sofa Verify UpdateConv SpecUpdate SpecPlan
  BaseFacts StrFacts UpdateFacts PropUpdate.
From Coq Require Import Lia.
Open Scope string_scope.
Open Scope list_scope.

(** ** The lines of the plan *)
Section LINES.
Variable Sv : server.
Variable d : cdir.
Hypothesis WN : well_named Sv.

Lemma csv_name c : In c (standardized Sv ++ deprecated Sv) -> c = csv_of (drop_end 4 c).
Proof.
  intro I. apply in_app_or in I. destruct (WN c I) as [x [-> _]]. unfold csv_of. change 4 with (String.length ".csv").
  now rewrite drop_end_app.
Qed.
Lemma drop_csv x : drop_end 4 (csv_of x) = x.
Proof. unfold csv_of. change 4 with (String.length ".csv"). apply drop_end_app. Qed.

Lemma is_file_true p : is_file p d = true <-> exists t, dget p (csvs d) = Some t.
Proof. unfold is_file, dmem. destruct (dget p (csvs d)) as [t|]; split; intro H; [eauto|reflexivity|discriminate H|destruct H as [t H]; discriminate H]. Qed.
Lemma is_file_false p : is_file p d = false <-> dget p (csvs d) = None.
Proof. unfold is_file, dmem. destruct (dget p (csvs d)) as [t|]; split; intro H; congruence. Qed.
Lemma differs_iff p x : differs p x d = true <-> exists t, dget p (csvs d) = Some t /\ clean t <> x.
Proof.
  unfold differs. destruct (dget p (csvs d)) as [t|].
  - rewrite negb_true_iff. split.
    + intro E. exists t. split; [reflexivity|]. apply String.eqb_neq, E.
    + intros [u [E N]]. injection E as <-. apply String.eqb_neq, N.
  - split; [intro H; discriminate H|intros [t [E _]]; discriminate E].
Qed.

(** what one step adds to the events *)
Lemma step_events p c : In c (standardized Sv ++ deprecated Sv) ->
  exists m, p_events (consider Sv d p c) = p_events p ++ m /\
    (forall e, In e m <-> announces Sv d (drop_end 4 c) e) /\
    (m = [] -> p_updated (consider Sv d p c) = p_updated p) /\
    (m <> [] -> p_updated (consider Sv d p c) = true).
Proof.
  intro I. assert (CN := csv_name c I). set (x := drop_end 4 c) in *.
  assert (OP : old_csv_of x = deprecated_path c) by (rewrite CN; reflexivity).
  assert (NO : (forall line, offered Sv c -> ~ announcement Sv d x line) ->
     forall e, In e [] <-> announces Sv d x e).
  { intros N e. split; [intros []|]. intros [line [_ [O A]]]. rewrite <- CN in O. exact (N line O A). }
  assert (ONE : forall line, offered Sv c -> announcement Sv d x line ->
     (forall l2, announcement Sv d x l2 -> l2 = line) -> forall e, In e [EvPrint line] <-> announces Sv d x e).
  { intros line O A U e. split.
    - intros [<-|[]]. exists line. rewrite <- CN. auto.
    - intros [l2 [-> [_ A2]]]. rewrite (U l2 A2). left. reflexivity. }
  unfold consider. destruct (excluded c) eqn:EX.
  { exists []. rewrite app_nil_r. split; [reflexivity|]. split; [|split; [reflexivity|congruence]].
    apply NO. intros line O _. apply offered_parts in O. destruct O as [_ O]. congruence. }
  assert (O := offered_of Sv c I EX).
  destruct (smem c (standardized Sv)) eqn:ST; cbn [andb negb].
  - assert (IS := proj1 (smem_In _ _) ST). destruct (is_file c d) eqn:IF; cbn [andb negb].
    + assert (IF' := proj1 (is_file_true c) IF). destruct IF' as [t G].
      destruct (differs c _ d) eqn:DF; cbn [p_events p_updated].
      * exists [EvPrint ("- update convention: " +++ x)]. split; [reflexivity|]. split; [|split; [intro X; discriminate X|reflexivity]].
        assert (DF' := proj1 (differs_iff _ _) DF). destruct DF' as [t' [G' N]].
        apply (ONE _ O).
        -- apply (an_update Sv d x t'); rewrite <- CN; [exact IS|exact G'|]. unfold server_text. rewrite ST. exact N.
        -- intros l2 A. destruct A as [H1 H2|t2 H1 H2 H3|t2 H1 H2|t2 H1 H2 H3 H4|H1 H2 H3]; rewrite <- CN in *; try congruence; contradiction.
      * exists []. rewrite app_nil_r. split; [reflexivity|]. split; [|split; [reflexivity|congruence]].
        apply NO. intros line _ A.
        destruct A as [H1 H2|t2 H1 H2 H3|t2 H1 H2|t2 H1 H2 H3 H4|H1 H2 H3]; rewrite <- CN in *; try congruence; try contradiction.
        assert (X : differs c (clean (content Sv true c)) d = true); [|congruence].
        apply differs_iff. exists t2. split; [exact H2|]. unfold server_text in H3. rewrite ST in H3. exact H3.
    + assert (G := proj1 (is_file_false c) IF). cbn [p_events p_updated].
      exists [EvPrint ("- add convention: " +++ x)]. split; [reflexivity|]. split; [|split; [intro X; discriminate X|reflexivity]].
      apply (ONE _ O).
      * apply an_add; rewrite <- CN; assumption.
      * intros l2 A. destruct A as [H1 H2|t2 H1 H2 H3|t2 H1 H2|t2 H1 H2 H3 H4|H1 H2 H3]; rewrite <- CN in *; try congruence; contradiction.
  - assert (IS : ~ In c (standardized Sv)) by (intro X; apply smem_In in X; congruence).
    destruct (is_file c d) eqn:IF; cbn [andb negb].
    + assert (IF' := proj1 (is_file_true c) IF). destruct IF' as [t G]. cbn [p_events p_updated].
      exists [EvPrint ("- deprecate convention: " +++ x)]. split; [reflexivity|]. split; [|split; [intro X; discriminate X|reflexivity]].
      apply (ONE _ O).
      * apply (an_deprecate Sv d x t); rewrite <- CN; assumption.
      * intros l2 A. destruct A as [H1 H2|t2 H1 H2 H3|t2 H1 H2|t2 H1 H2 H3 H4|H1 H2 H3]; rewrite <- CN in *; try congruence; contradiction.
    + assert (G := proj1 (is_file_false c) IF). destruct (is_file (deprecated_path c) d) eqn:IO; cbn [andb negb].
      * destruct (differs (deprecated_path c) _ d) eqn:DF; cbn [p_events p_updated].
        -- assert (DF' := proj1 (differs_iff _ _) DF). destruct DF' as [t' [G' N]].
           exists [EvPrint ("- update deprecated convention: " +++ x)]. split; [reflexivity|]. split; [|split; [intro X; discriminate X|reflexivity]].
           apply (ONE _ O).
           ++ apply (an_update_old Sv d x t'); try rewrite OP; try rewrite <- CN; try assumption. unfold server_text. rewrite ST. exact N.
           ++ intros l2 A. destruct A as [H1 H2|t2 H1 H2 H3|t2 H1 H2|t2 H1 H2 H3 H4|H1 H2 H3]; try rewrite OP in *; rewrite <- CN in *; try congruence; contradiction.
        -- exists []. rewrite app_nil_r. split; [reflexivity|]. split; [|split; [reflexivity|congruence]].
           apply NO. intros line _ A. assert (IO' := proj1 (is_file_true _) IO). destruct IO' as [t' G'].
           destruct A as [H1 H2|t2 H1 H2 H3|t2 H1 H2|t2 H1 H2 H3 H4|H1 H2 H3]; try rewrite OP in *; rewrite <- CN in *; try congruence; try contradiction.
           assert (X : differs (deprecated_path c) (clean (content Sv false c)) d = true); [|congruence].
           apply differs_iff. exists t2. split; [exact H3|]. unfold server_text in H4. rewrite ST in H4. exact H4.
      * assert (G' := proj1 (is_file_false _) IO). cbn [p_events p_updated].
        exists [EvPrint ("- add deprecated convention: " +++ x)]. split; [reflexivity|]. split; [|split; [intro X; discriminate X|reflexivity]].
        apply (ONE _ O).
        -- apply an_add_old; try rewrite OP; try rewrite <- CN; assumption.
        -- intros l2 A. destruct A as [H1 H2|t2 H1 H2 H3|t2 H1 H2|t2 H1 H2 H3 H4|H1 H2 H3]; try rewrite OP in *; rewrite <- CN in *; try congruence; contradiction.
Qed.

Lemma fold_events l : forall p, (forall c, In c l -> In c (standardized Sv ++ deprecated Sv)) ->
  (p_updated p = true <-> p_events p <> []) ->
  (forall e, In e (p_events (fold_left (consider Sv d) l p)) <->
     In e (p_events p) \/ exists c, In c l /\ announces Sv d (drop_end 4 c) e) /\
  (p_updated (fold_left (consider Sv d) l p) = true <-> p_events (fold_left (consider Sv d) l p) <> []).
Proof.
  induction l as [|c l IH]; intros p L U; cbn [fold_left].
  - split; [|exact U]. intro e. split; [auto|]. intros [H|[c [[] _]]]. exact H.
  - destruct (step_events p c (L c (or_introl eq_refl))) as [m [E [A [U0 U1]]]].
    destruct (IH (consider Sv d p c)) as [Q1 Q2].
    + intros y I. apply L. right. exact I.
    + rewrite E. destruct m as [|e m].
      * rewrite app_nil_r, (U0 eq_refl). exact U.
      * rewrite (U1 ltac:(discriminate)). split; [|reflexivity]. intros _ X. apply app_eq_nil in X. destruct X as [_ X]. discriminate X.
    + split; [|exact Q2]. intro e. rewrite Q1, E, in_app_iff, A. split.
      * intros [[H|H]|[y [I H]]]; [left; exact H|right; exists c; split; [left; reflexivity|exact H]|right; exists y; split; [right; exact I|exact H]].
      * intros [H|[y [[<-|I] H]]]; [auto|auto|]. right. exists y. auto.
Qed.

Lemma plan_events :
  (forall e, In e (p_events (make_plan Sv d)) <-> exists x, announces Sv d x e) /\
  (p_updated (make_plan Sv d) = true <-> p_events (make_plan Sv d) <> []).
Proof.
  destruct (fold_events (standardized Sv ++ deprecated Sv) (Plan false [] [] [] [])) as [Q1 Q2].
  - auto.
  - cbn. split; [intro H; discriminate H|congruence].
  - split; [|exact Q2]. intro e. unfold make_plan. rewrite Q1. cbn [p_events]. split.
    + intros [[]|[c [_ H]]]. eauto.
    + intros [x H]. right. exists (csv_of x). rewrite drop_csv. split; [|exact H].
      destruct H as [line [_ [O _]]]. apply offered_parts in O. apply O.
Qed.

(** the files a plan touches are announced *)
Lemma update_announced q : In q (p_update (make_plan Sv d)) ->
  exists x e, (q = csv_of x \/ q = old_csv_of x) /\ In e (p_events (make_plan Sv d)) /\ announces Sv d x e.
Proof.
  intro I. apply (pl_upd _ _ _ _ (plan_ok Sv d)) in I. destruct I as [c [I [EX N]]].
  assert (CN := csv_name c I). set (x := drop_end 4 c) in *. assert (O := offered_of Sv c I EX).
  assert (AN : exists line, announcement Sv d x line).
  { unfold data_of in N. destruct N as [[ST [-> N]]|[ST [IF [-> N]]]].
    - assert (IS := proj1 (smem_In _ _) ST).
      destruct (dget c (csvs d)) as [t|] eqn:G.
      + destruct N as [N|N]; [apply is_file_false in N; congruence|]. apply differs_iff in N. destruct N as [t' [G' N]].
        eexists. apply (an_update Sv d x t'); rewrite <- CN; [exact IS|exact G'|]. unfold server_text. exact N.
      + eexists. apply an_add; rewrite <- CN; assumption.
    - assert (IS : ~ In c (standardized Sv)) by (intro X; apply smem_In in X; congruence). apply is_file_false in IF.
      assert (OP : old_csv_of x = deprecated_path c) by (rewrite CN; reflexivity).
      destruct (dget (deprecated_path c) (csvs d)) as [t|] eqn:G.
      + destruct N as [N|N]; [apply is_file_false in N; congruence|]. apply differs_iff in N. destruct N as [t' [G' N]].
        eexists. apply (an_update_old Sv d x t'); try rewrite OP; try rewrite <- CN; try assumption.
      + eexists. apply an_add_old; try rewrite OP; try rewrite <- CN; assumption. }
  destruct AN as [line A]. exists x, (EvPrint line). split; [|split].
  - destruct N as [[_ [-> _]]|[_ [_ [-> _]]]]; [left; exact CN|right; rewrite CN; reflexivity].
  - apply plan_events. exists x, line. rewrite <- CN. auto.
  - exists line. rewrite <- CN. auto.
Qed.
Lemma deprecate_announced c : In c (p_deprecate (make_plan Sv d)) ->
  exists x e, c = csv_of x /\ In e (p_events (make_plan Sv d)) /\ announces Sv d x e.
Proof.
  intro I. apply (pl_dep _ _ _ _ (plan_ok Sv d)) in I. destruct I as [I [EX [ST IF]]].
  assert (CN := csv_name c I). set (x := drop_end 4 c) in *. assert (O := offered_of Sv c I EX).
  assert (IS : ~ In c (standardized Sv)) by (intro X; apply smem_In in X; congruence).
  apply is_file_true in IF. destruct IF as [t G].
  assert (A : announces Sv d x (EvPrint ("- deprecate convention: " +++ x))).
  { eexists. split; [reflexivity|]. rewrite <- CN. split; [exact O|]. apply (an_deprecate Sv d x t); rewrite <- CN; assumption. }
  exists x, (EvPrint ("- deprecate convention: " +++ x)). split; [exact CN|]. split; [|exact A].
  apply plan_events. eauto.
Qed.
End LINES.

(** ** Files that are not touched, also if the update fails *)
Lemma copy_files_other temp l q : ~ In q l -> forall d d' r, copy_files temp l d = (d', r) ->
  dget q (csvs d') = dget q (csvs d).
Proof.
  induction l as [|p l IH]; intros N d d' r H; cbn [copy_files] in H; [injection H as <- <-; reflexivity|].
  unfold copy_file in H. destruct (dget p temp) as [x|] eqn:G; [|injection H as <- <-; reflexivity].
  rewrite (IH (fun X => N (or_intror X)) _ _ _ H). cbn [csvs]. apply dget_dset_other. intros ->. apply N. left. reflexivity.
Qed.
Lemma deprecate_files_other temp l q : ~ In q l -> (forall c, In c l -> q <> deprecated_path c) ->
  forall d d' r, deprecate_files temp l d = (d', r) -> dget q (csvs d') = dget q (csvs d).
Proof.
  induction l as [|c l IH]; intros N NP d d' r H; cbn [deprecate_files] in H; [injection H as <- <-; reflexivity|].
  assert (NE : q <> c) by (intros ->; apply N; left; reflexivity).
  destruct (dmem c (csvs d)); cbn [negb csvs jsons] in H; [|injection H as <- <-; reflexivity].
  destruct (dmem (json_name c) (jsons d)); cbn [negb] in H; [|injection H as <- <-; cbn [csvs]; apply dget_ddel_other, NE].
  unfold copy_file in H. destruct (dget (deprecated_path c) temp) as [x|]; cbn [csvs jsons] in H.
  - rewrite (IH (fun X => N (or_intror X)) (fun y I => NP y (or_intror I)) _ _ _ H). cbn [csvs].
    rewrite dget_dset_other; [|apply NP; left; reflexivity]. apply dget_ddel_other, NE.
  - injection H as <- <-. cbn [csvs]. apply dget_ddel_other, NE.
Qed.
Lemma apply_other F p d d' r q : apply_plan F p d = (d', r) ->
  dget q (csvs d') <> dget q (csvs d) -> In q (p_update p) \/ exists c, In c (p_deprecate p) /\ (q = c \/ q = deprecated_path c).
Proof.
  intros H N. destruct (in_dec string_dec q (p_update p)) as [I|NI]; [left; exact I|].
  destruct (existsb (fun c => String.eqb q c || String.eqb q (deprecated_path c)) (p_deprecate p)) eqn:E.
  { apply existsb_exists in E. destruct E as [c [I E]]. right. exists c. split; [exact I|].
    apply orb_true_iff in E. destruct E as [E|E]; apply String.eqb_eq in E; auto. }
  exfalso. apply N.
  assert (ND : forall c, In c (p_deprecate p) -> q <> c /\ q <> deprecated_path c).
  { intros c I. assert (X : existsb (fun c => String.eqb q c || String.eqb q (deprecated_path c)) (p_deprecate p) = true -> False) by congruence.
    split; intro Y; apply X, existsb_exists; exists c; (split; [exact I|]); rewrite <- Y, String.eqb_refl; [reflexivity|apply orb_true_r]. }
  unfold apply_plan in H. destruct (copy_files _ _ d) as [d1 [[]|e]] eqn:C.
  - assert (Q1 := copy_files_other _ _ _ NI _ _ _ C). rewrite <- Q1.
    assert (NI2 : ~ In q (p_deprecate p)) by (intro X; destruct (ND q X) as [Y _]; apply Y; reflexivity).
    destruct (deprecate_files _ _ d1) as [d2 [[]|e]] eqn:D; assert (Q2 := deprecate_files_other _ _ _ NI2 (fun c I => proj2 (ND c I)) _ _ _ D).
    + rewrite <- Q2. f_equal. apply (compile_files_csvs _ _ _ _ _ H).
    + injection H as <- <-. exact Q2.
  - injection H as <- <-. apply (copy_files_other _ _ _ NI _ _ _ C).
Qed.

(** ** C81: The announced changes are the changes made *)

(** Before anything is changed and before the user is asked, exactly the lines
    of [announcement] are printed; "already up to date" is printed if and only
    if there is none. *)
Theorem C81_announced F S assume_yes response d d' ev r :
  well_named S -> update_conventions F S assume_yes response d = (d', ev, r) ->
  exists news tail,
    ev = EvPrint msg_reading :: news ++ tail /\
    (forall e, In e news <-> exists x, announces S d x e) /\
    (news = [] -> tail = [EvPrint "... conventions already up to date."] /\ d' = d /\ r = Ok tt) /\
    (news <> [] -> ~ In (EvPrint "... conventions already up to date.") tail /\
       (assume_yes = false -> exists t, tail = EvPrint msg_ask :: t)).
Proof.
  intros WN H. destruct (plan_events S d WN) as [Q1 Q2]. exists (p_events (make_plan S d)).
  unfold update_conventions, carry_out in H. destruct (p_updated (make_plan S d)) eqn:U.
  - assert (NN := proj1 Q2 eq_refl). destruct assume_yes; cbn [negb andb app] in H.
    + destruct (apply_plan F (make_plan S d) d) as [d1 [[]|e]]; injection H as <- <- <-.
      * exists [EvPrint msg_done]. split; [reflexivity|]. split; [exact Q1|]. split; [congruence|]. intros _. split; [|intro X; discriminate X].
        intros [X|[]]; discriminate X.
      * exists []. split; [reflexivity|]. split; [exact Q1|]. split; [congruence|]. intros _. split; [intros []|intro X; discriminate X].
    + destruct (String.eqb response "y"); cbn [negb] in H.
      * destruct (apply_plan F (make_plan S d) d) as [d1 [[]|e]]; injection H as <- <- <-.
        -- exists [EvPrint msg_ask; EvPrint msg_done]. split; [reflexivity|]. split; [exact Q1|]. split; [congruence|]. intros _. split; [|eauto].
           intros [X|[X|[]]]; discriminate X.
        -- exists [EvPrint msg_ask]. split; [reflexivity|]. split; [exact Q1|]. split; [congruence|]. intros _. split; [|eauto].
           intros [X|[]]; discriminate X.
      * injection H as <- <- <-. exists [EvPrint msg_ask; EvPrint msg_cancel]. split; [reflexivity|]. split; [exact Q1|]. split; [congruence|]. intros _. split; [|eauto].
        intros [X|[X|[]]]; discriminate X.
  - injection H as <- <- <-. exists [EvPrint msg_current]. split; [reflexivity|]. split; [exact Q1|]. split; [auto|].
    intro N. apply Q2 in N. discriminate N.
Qed.
Print Assumptions C81_announced.

(** Whatever happens afterwards, also if the update fails: a csv file that
    changed was announced, and if a json file changed something was announced. *)
Theorem C81_changes_announced F S assume_yes response d d' ev r :
  well_named S -> update_conventions F S assume_yes response d = (d', ev, r) ->
  (forall q, dget q (csvs d') <> dget q (csvs d) ->
     exists x e, (q = csv_of x \/ q = old_csv_of x) /\ In e ev /\ announces S d x e) /\
  (forall j, dget j (jsons d') <> dget j (jsons d) -> exists x e, In e ev /\ announces S d x e).
Proof.
  intros WN H. assert (EV : forall e, In e (p_events (make_plan S d)) -> In e ev).
  { intros e I. unfold update_conventions, carry_out in H. destruct (p_updated (make_plan S d)).
    - destruct (negb assume_yes && negb (String.eqb response "y")); [|destruct (apply_plan F (make_plan S d) d) as [d1 [[]|x]]];
        injection H as <- <- <-; right; apply in_or_app; left; exact I.
    - injection H as <- <- <-. right. apply in_or_app. left. exact I. }
  assert (CH : d' = d \/ p_updated (make_plan S d) = true /\ exists r', apply_plan F (make_plan S d) d = (d', r')).
  { unfold update_conventions, carry_out in H. destruct (p_updated (make_plan S d)).
    - destruct (negb assume_yes && negb (String.eqb response "y")); [injection H as <- <- <-; left; reflexivity|].
      destruct (apply_plan F (make_plan S d) d) as [d1 [[]|x]]; injection H as <- <- <-; eauto.
    - injection H as <- <- <-. left. reflexivity. }
  destruct CH as [->|[U [r' AP]]]; [split; intros q N; destruct (N eq_refl)|]. split.
  - intros q N. destruct (apply_other _ _ _ _ _ _ AP N) as [I|[c [I E]]].
    + destruct (update_announced S d WN q I) as [x [e [Q [IE A]]]]. exists x, e. auto.
    + destruct (deprecate_announced S d WN c I) as [x [e [-> [IE A]]]]. exists x, e. auto.
  - intros j _. destruct (plan_events S d WN) as [Q1 Q2]. apply Q2 in U.
    destruct (p_events (make_plan S d)) as [|e l] eqn:E; [congruence|].
    destruct (proj1 (Q1 e) (or_introl eq_refl)) as [x A]. exists x, e. split; [apply EV; left; reflexivity|exact A].
Qed.
Print Assumptions C81_changes_announced.

(** An accepted update that completes does what was announced: the file of the
    convention has the (cleaned) text of the server, and is not what it was
    before unless the lines of the server's text end irregularly. *)
Theorem C81_announcements_kept F S assume_yes response d d' ev x e :
  well_named S -> dir_ok d -> assume_yes = true \/ response = "y" ->
  update_conventions F S assume_yes response d = (d', ev, Ok tt) ->
  announces S d x e ->
  let text := clean (server_text S (csv_of x)) in
  (In (csv_of x) (standardized S) ->
     dget (csv_of x) (csvs d') = Some text /\
     ((exists u, cleaned (server_text S (csv_of x)) u) -> dget (csv_of x) (csvs d) <> Some text)) /\
  (~ In (csv_of x) (standardized S) ->
     dget (csv_of x) (csvs d') = None /\ dget (old_csv_of x) (csvs d') = Some text /\
     ((exists u, cleaned (server_text S (csv_of x)) u) ->
        dget (csv_of x) (csvs d) <> None \/ dget (old_csv_of x) (csvs d) <> Some text)).
Proof.
  intros WN W A H [line [-> [O AN]]] text.
  assert (Q := update_csv F S WN _ _ _ _ _ W A H).
  assert (DIFF : forall t, clean t <> text -> (exists u, cleaned (server_text S (csv_of x)) u) -> Some t <> Some text).
  { intros t N [u C] E. injection E as ->. apply N. unfold text. apply (clean_idem _ u C). }
  split; intro ST.
  - rewrite Q. destruct (after_std S WN d _ O ST) as [t [-> M]]. unfold mirrored, data_of in M. fold (server_text S (csv_of x)) in M. fold text in M.
    destruct AN as [H1 H2|t2 H1 H2 H3|t2 H1 H2|t2 H1 H2 H3 H4|H1 H2 H3]; try contradiction.
    + rewrite H2 in M |- *. destruct M as [->|[M _]]; [|discriminate M]. split; [reflexivity|]. intros _ X. discriminate X.
    + rewrite H2 in M |- *. split; [|apply (DIFF t2 H3)]. destruct M as [->|[M1 M2]]; [reflexivity|]. injection M1 as ->. contradiction.
  - rewrite !Q. change (old_csv_of x) with (deprecated_path (csv_of x)). destruct (after_dep S WN d _ O ST) as [-> [t [E M]]].
    split; [reflexivity|]. rewrite E. unfold mirrored, data_of in M. fold (server_text S (csv_of x)) in M. fold text in M.
    destruct AN as [H1 H2|t2 H1 H2 H3|t2 H1 H2|t2 H1 H2 H3 H4|H1 H2 H3]; try contradiction.
    + split; [|intros _; left; congruence]. assert (P := plan_ok S d). f_equal.
      assert (ID : In (csv_of x) (p_deprecate (make_plan S d))).
      { apply (pl_dep _ _ _ _ P). destruct (offered_parts S _ O) as [I EX]. split; [exact I|]. split; [exact EX|]. split; [apply smem_false, ST|].
        unfold is_file, dmem. rewrite H2. reflexivity. }
      unfold after_csv in E. destruct (smem (deprecated_path (csv_of x)) _) eqn:SM; [discriminate E|].
      assert (EB : existsb (fun c => String.eqb (deprecated_path (csv_of x)) (deprecated_path c)) (p_deprecate (make_plan S d)) = true)
        by (apply existsb_exists; exists (csv_of x); split; [exact ID|apply String.eqb_refl]).
      rewrite EB in E. destruct (temp_dep S d (listed_slash S WN) _ _ E) as [-> _]. reflexivity.
    + change (old_csv_of x) with (deprecated_path (csv_of x)) in H3. rewrite H3 in M |- *. split; [|intro C; right; apply (DIFF t2 H4 C)].
      destruct M as [->|[M1 M2]]; [reflexivity|]. injection M1 as ->. contradiction.
    + change (old_csv_of x) with (deprecated_path (csv_of x)) in H3. rewrite H3 in M |- *. split; [|intros _; right; discriminate].
      destruct M as [->|[M1 _]]; [reflexivity|discriminate M1].
Qed.
Print Assumptions C81_announcements_kept.

(** A is added, B deprecated; nothing is said of the excluded convention and of
    C, which the server does not know *)
Example C81_case :
  snd (fst (update_conventions demo_flt demo_server false "y" demo_dir)) =
    [EvPrint msg_reading; EvPrint "- add convention: A"; EvPrint "- deprecate convention: B";
     EvPrint msg_ask; EvPrint msg_done] /\
  announces demo_server demo_dir "A" (EvPrint "- add convention: A") /\
  announces demo_server demo_dir "B" (EvPrint "- deprecate convention: B") /\
  (* the next time only what changed on the server since is announced *)
  snd (fst (update_conventions demo_flt
       (Server ["A.csv"] ["B.csv"] (fun _ c => if String.eqb c "A.csv" then csv_text crlf rows_b else csv_text nl rows_b))
       false "n" updated_dir)) =
    [EvPrint msg_reading; EvPrint "- update convention: A"; EvPrint msg_ask; EvPrint msg_cancel].
Proof.
  split; [vm_compute; reflexivity|]. split; [|split; [|vm_compute; reflexivity]].
  - eexists. split; [reflexivity|]. split; [split; [cbn; tauto|split; reflexivity]|].
    apply (an_add demo_server demo_dir "A"); [left; reflexivity|reflexivity].
  - eexists. split; [reflexivity|]. split; [split; [cbn; tauto|split; reflexivity]|].
    apply (an_deprecate demo_server demo_dir "B" (csv_text nl rows_b)); [|reflexivity].
    intros [X|[X|[]]]; discriminate X.
Qed.
