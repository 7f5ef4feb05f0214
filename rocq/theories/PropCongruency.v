(** C63: the report about diverging conventions. *)
From Verif Require Import Base PyStr Sofa Verify UpdateConv Congruency SpecCongruency BaseFacts StrFacts PropUpdate.
From Coq Require Import Lia.
Open Scope string_scope.
Open Scope list_scope.

(** ** Running through a list while removing from it *)
Lemma excluded_iff c : excluded c = true <-> ignored c.
Proof. unfold excluded, ignored. apply orb_true_iff. Qed.
Lemma smem_In c l : smem c l = true <-> In c l.
Proof.
  unfold smem. rewrite existsb_exists. split.
  - intros [x [I Q]]. apply String.eqb_eq in Q. subst. exact I.
  - intro I. exists c. split; [exact I|apply eqb_refl_s].
Qed.

Lemma removed_sub c l x : In x (remove_first c l) -> In x l.
Proof.
  induction l as [|y l IH]; cbn [remove_first]; [auto|]. destruct (String.eqb y c); [right; assumption|].
  intros [->|I]; [left; reflexivity|right; apply IH; exact I].
Qed.
Lemma removed_other c l x : x <> c -> In x l -> In x (remove_first c l).
Proof.
  intro N. induction l as [|y l IH]; cbn [remove_first]; [auto|]. destruct (String.eqb_spec y c) as [->|Q].
  - intros [->|I]; [contradiction|exact I].
  - intros [->|I]; [left; reflexivity|right; apply IH; exact I].
Qed.
Lemma removed_here c pre rest : ~ In c pre -> remove_first c (pre ++ c :: rest) = pre ++ rest.
Proof.
  induction pre as [|y pre IH]; intro N; cbn [remove_first app]; [rewrite eqb_refl_s; reflexivity|].
  destruct (String.eqb_spec y c) as [->|Q]; [exfalso; apply N; left; reflexivity|]. f_equal. apply IH.
  intro I. apply N. right. exact I.
Qed.

(** what is kept *)
Definition kept (other : list string) (c : string) : bool := negb (excluded c) && smem c other.
Definition lost (other : list string) (c : string) : bool := negb (excluded c) && negb (smem c other).

(** without any condition: names found on both platforms stay, lines are true *)
Lemma compare_sound line other n : forall i l l' rep, compare_names line other n i l = (l', rep) ->
  (forall c, In c l' -> In c l) /\ (forall c, In c l -> kept other c = true -> In c l')
  /\ (forall t, In t rep -> exists c, t = line c /\ In c l /\ lost other c = true).
Proof.
  induction n as [|n IH]; intros i l l' rep; cbn [compare_names].
  - intro Q. injection Q as <- <-. split; [auto|]. split; [auto|intros t []].
  - destruct (nth_error l i) as [c|] eqn:NE; [|intro Q; injection Q as <- <-; split; [auto|]; split; [auto|intros t []]].
    apply nth_error_In in NE. destruct (excluded c) eqn:EX.
    + intro Q. destruct (IH _ _ _ _ Q) as [A [B C]]. split; [intros x I; apply (removed_sub c), A, I|]. split.
      * intros x I K. apply B; [|exact K]. apply removed_other; [|exact I]. intros ->. unfold kept in K. rewrite EX in K. discriminate K.
      * intros t T. destruct (C t T) as [x [X1 [X2 X3]]]. exists x. split; [exact X1|]. split; [apply (removed_sub c), X2|exact X3].
    + destruct (smem c other) eqn:SM; cbn [negb]; [apply IH|].
      destruct (compare_names line other n (S i) (remove_first c l)) as [r rp] eqn:Q. intro P. injection P as <- <-.
      destruct (IH _ _ _ _ Q) as [A [B C]]. split; [intros x I; apply (removed_sub c), A, I|]. split.
      * intros x I K. apply B; [|exact K]. apply removed_other; [|exact I]. intros ->. unfold kept in K. rewrite SM, andb_false_r in K. discriminate K.
      * intros t [<-|T].
        -- exists c. split; [reflexivity|]. split; [exact NE|]. unfold lost. rewrite EX, SM. reflexivity.
        -- destruct (C t T) as [x [X1 [X2 X3]]]. exists x. split; [exact X1|]. split; [apply (removed_sub c), X2|exact X3].
Qed.

(** no two neighbours are removed *)
Fixpoint apart (other l : list string) : Prop :=
  match l with
  | c :: (d :: _) as t => (kept other c = true \/ kept other d = true) /\ apart other t
  | _ => True
  end.
Lemma apart_tail other c l : apart other (c :: l) -> apart other l.
Proof. destruct l as [|d l]; [intros _; exact I|intros [_ H]; exact H]. Qed.

Lemma compare_exact line other n : forall pre rest, NoDup (pre ++ rest) -> apart other rest -> List.length rest <= n ->
  compare_names line other n (List.length pre) (pre ++ rest)
  = (pre ++ filter (kept other) rest, map line (filter (lost other) rest)).
Proof.
  induction n as [n IH] using (well_founded_induction lt_wf). intros pre rest ND AP LE.
  destruct rest as [|c rest].
  - cbn [filter map]. destruct n as [|n]; cbn [compare_names]; [reflexivity|].
    replace (nth_error (pre ++ []) (List.length pre)) with (@None string); [reflexivity|].
    symmetry. apply nth_error_None. rewrite app_nil_r. lia.
  - destruct n as [|n]; [cbn in LE; lia|]. cbn [compare_names].
    assert (NE : nth_error (pre ++ c :: rest) (List.length pre) = Some c).
    { rewrite nth_error_app2 by lia. rewrite Nat.sub_diag. reflexivity. }
    rewrite NE. assert (NI : ~ In c pre) by (intro I; apply (NoDup_remove_2 _ _ _ ND); apply in_or_app; left; exact I).
    assert (ND' := NoDup_remove_1 _ _ _ ND). rewrite (removed_here c pre rest NI).
    assert (REM : kept other c = false ->
      compare_names line other n (S (List.length pre)) (pre ++ rest)
      = (pre ++ filter (kept other) rest, map line (filter (lost other) rest))).
    { intro KC. destruct rest as [|d rest].
      - cbn [filter map]. destruct n as [|n]; cbn [compare_names]; [reflexivity|].
        replace (nth_error (pre ++ []) (S (List.length pre))) with (@None string); [reflexivity|].
        symmetry. apply nth_error_None. rewrite app_nil_r. lia.
      - assert (KD : kept other d = true) by (destruct AP as [[K|K] _]; [rewrite K in KC; discriminate KC|exact K]).
        assert (LD : lost other d = false).
        { unfold kept in KD. unfold lost. apply andb_true_iff in KD. destruct KD as [_ ->]. apply andb_false_r. }
        cbn [filter]. rewrite KD, LD. replace (S (List.length pre)) with (List.length (pre ++ [d])) by (rewrite app_length; cbn; lia).
        replace (pre ++ d :: rest) with ((pre ++ [d]) ++ rest) by (rewrite <- app_assoc; reflexivity).
        rewrite IH.
        + rewrite <- app_assoc. reflexivity.
        + lia.
        + rewrite <- app_assoc. exact ND'.
        + apply apart_tail in AP. apply apart_tail in AP. exact AP.
        + cbn in LE. lia. }
    destruct (excluded c) eqn:EX.
    + assert (KC : kept other c = false) by (unfold kept; rewrite EX; reflexivity).
      assert (LC : lost other c = false) by (unfold lost; rewrite EX; reflexivity).
      rewrite (REM KC). cbn [filter]. rewrite KC, LC. reflexivity.
    + destruct (smem c other) eqn:SM; cbn [negb].
      * assert (KC : kept other c = true) by (unfold kept; rewrite EX, SM; reflexivity).
        assert (LC : lost other c = false) by (unfold lost; rewrite EX, SM; reflexivity).
        cbn [filter]. rewrite KC, LC. replace (S (List.length pre)) with (List.length (pre ++ [c])) by (rewrite app_length; cbn; lia).
        replace (pre ++ c :: rest) with ((pre ++ [c]) ++ rest) by (rewrite <- app_assoc; reflexivity).
        rewrite IH.
        -- rewrite <- app_assoc. reflexivity.
        -- lia.
        -- rewrite <- app_assoc. exact ND.
        -- apply apart_tail in AP. exact AP.
        -- cbn in LE. lia.
      * assert (KC : kept other c = false) by (unfold kept; rewrite EX, SM; reflexivity).
        assert (LC : lost other c = true) by (unfold lost; rewrite EX, SM; reflexivity).
        rewrite (REM KC). cbn [filter]. rewrite KC, LC. reflexivity.
Qed.

Lemma kept_iff other c : kept other c = true <-> ~ ignored c /\ In c other.
Proof. unfold kept. rewrite andb_true_iff, negb_true_iff, <- not_true_iff_false, excluded_iff, smem_In. reflexivity. Qed.
Lemma lost_iff other c : lost other c = true <-> ~ ignored c /\ ~ In c other.
Proof.
  unfold lost. rewrite andb_true_iff, !negb_true_iff, <- !not_true_iff_false, excluded_iff, smem_In. reflexivity.
Qed.
Lemma diverges_iff P c : diverges P c = true <-> clean (org_file P c) <> clean (toolbox_file P c).
Proof. unfold diverges. rewrite negb_true_iff. apply String.eqb_neq. Qed.
Lemma spaced_apart other l : spaced other l -> apart other l.
Proof.
  induction l as [|c l IH]; [auto|]. destruct l as [|d l]; [auto|]. intros [H T]. split; [|apply IH; exact T].
  destruct H as [H|H]; [left|right]; apply kept_iff; exact H.
Qed.
Lemma apart_ext o1 o2 l : (forall c, In c l -> kept o1 c = kept o2 c) -> apart o1 l -> apart o2 l.
Proof.
  induction l as [|c l IH]; [auto|]. destruct l as [|d l]; [auto|]. intros Q [H T]. split.
  - rewrite <- (Q c), <- (Q d) by (cbn; auto). exact H.
  - apply IH; [|exact T]. intros x I. apply Q. right. exact I.
Qed.
Lemma sconcat_map {A} (f : A -> string) l : sconcat (fun x => x) (map f l) = sconcat f l.
Proof. induction l as [|x l IH]; [reflexivity|]. cbn [map sconcat]. rewrite IH. reflexivity. Qed.

(** the lines as findings *)
Definition printed (l : list (finding * string)) : list event :=
  match l with [] => [] | _ => [EvPrint (report_text l)] end.
Definition saved (P : platforms) (l : list (finding * string)) (x : string * string) : Prop :=
  exists c, In (Different, c) l
    /\ (x = ("sofaconventions/" +++ c, clean (org_file P c)) \/ x = ("sofatoolbox/" +++ c, clean (toolbox_file P c))).

Lemma line_of l : map (fun fc => finding_line (fst fc) (snd fc)) l = [] -> l = [].
Proof. destruct l; [reflexivity|discriminate]. Qed.

(** the call, once names and lines are known *)
Lemma congruency_call P sd org l :
  on_org P <> [] -> on_toolbox P <> [] -> sd <> Some false ->
  compare_platforms P = (org, map (fun fc => finding_line (fst fc) (snd fc)) l) ->
  check_congruency P sd = (printed l, match sd with Some _ => saved_files P org | None => [] end, Ok tt).
Proof.
  intros N1 N2 N3 Q. unfold check_congruency. rewrite Q.
  destruct sd as [[]|]; [|contradiction N3; reflexivity|];
    (destruct (on_org P); [contradiction|]; destruct (on_toolbox P); [contradiction|];
     destruct l as [|fc l]; [reflexivity|];
     unfold printed, report_text; rewrite <- (sconcat_map (fun fc => finding_line (fst fc) (snd fc)) (fc :: l)); reflexivity).
Qed.

Lemma saved_iff P org l x :
  (forall c, In (Different, c) l <-> In c org /\ clean (org_file P c) <> clean (toolbox_file P c)) ->
  (In x (saved_files P org) <-> saved P l x).
Proof.
  intro H. unfold saved_files, saved. rewrite in_concat. split.
  - intros [ys [I X]]. apply in_map_iff in I. destruct I as [c [<- I]]. apply filter_In in I. destruct I as [I D].
    apply diverges_iff in D. exists c. split; [apply H; auto|]. destruct X as [<-|[<-|[]]]; auto.
  - intros [c [I X]]. apply H in I. destruct I as [I D]. eexists. split.
    + apply in_map. apply filter_In. split; [exact I|apply diverges_iff; exact D].
    + cbn [In]. destruct X as [->| ->]; auto.
Qed.

(** ** C63 *)

(** Without any condition on the lists. Missing: a name that follows a removed
    one in the list is skipped, [C63_refuted]. *)
Theorem C63_report_partial :
  forall P sd, on_org P <> [] -> on_toolbox P <> [] -> sd <> Some false ->
  exists l files, check_congruency P sd = (printed l, files, Ok tt)
  /\ (forall f c, In (f, c) l -> f <> Different -> finding_true P f c)
  /\ (forall c, In (Different, c) l -> In c (on_org P) /\ clean (org_file P c) <> clean (toolbox_file P c))
  /\ (forall c, ~ ignored c -> In c (on_org P) -> In c (on_toolbox P) ->
        (In (Different, c) l <-> finding_true P Different c))
  /\ (forall x, In x files <-> sd = Some true /\ saved P l x).
Proof.
  intros P sd N1 N2 N3.
  destruct (compare_names line_toolbox (on_toolbox P) (List.length (on_org P)) 0 (on_org P)) as [org r1] eqn:C1.
  destruct (compare_names line_org org (List.length (on_toolbox P)) 0 (on_toolbox P)) as [tb r2] eqn:C2.
  destruct (compare_sound _ _ _ _ _ _ _ C1) as [A1 [B1 D1]]. destruct (compare_sound _ _ _ _ _ _ _ C2) as [A2 [B2 D2]].
  assert (L1 : exists l1, r1 = map (finding_line NotInToolbox) l1 /\ forall c, In c l1 -> finding_true P NotInToolbox c).
  { clear - D1. induction r1 as [|t r1 IH]; [exists []; split; [reflexivity|intros c []]|].
    destruct IH as [l1 [-> H]]; [intros x I; apply D1; right; exact I|].
    destruct (D1 t (or_introl eq_refl)) as [c [-> [I K]]]. exists (c :: l1). split; [reflexivity|].
    apply lost_iff in K. intros x [<-|X]; [|apply H; exact X]. cbn [finding_true]. tauto. }
  assert (L2 : exists l2, r2 = map (finding_line NotOnOrg) l2 /\ forall c, In c l2 -> finding_true P NotOnOrg c).
  { clear - D2 B1. induction r2 as [|t r2 IH]; [exists []; split; [reflexivity|intros c []]|].
    destruct IH as [l2 [-> H]]; [intros x I; apply D2; right; exact I|].
    destruct (D2 t (or_introl eq_refl)) as [c [-> [I K]]]. exists (c :: l2). split; [reflexivity|].
    apply lost_iff in K. intros x [<-|X]; [|apply H; exact X]. cbn [finding_true]. split; [tauto|]. split; [exact I|].
    intro O. apply (proj2 K). apply B1; [exact O|]. apply kept_iff. tauto. }
  destruct L1 as [l1 [-> H1]]. destruct L2 as [l2 [-> H2]].
  set (l := map (pair NotInToolbox) l1 ++ map (pair NotOnOrg) l2 ++ map (pair Different) (filter (diverges P) org)).
  assert (INL : forall f c, In (f, c) l -> match f with NotInToolbox => In c l1 | NotOnOrg => In c l2 | Different => In c (filter (diverges P) org) end).
  { intros f c I. unfold l in I. rewrite !in_app_iff, !in_map_iff in I.
    destruct I as [[x [Q X]]|[[x [Q X]]|[x [Q X]]]]; injection Q as <- <-; exact X. }
  assert (DL : forall c, In (Different, c) l <-> In c org /\ clean (org_file P c) <> clean (toolbox_file P c)).
  { intro c. split.
    - intro I. apply INL in I. apply filter_In in I. destruct I as [I D]. split; [exact I|]. apply diverges_iff. exact D.
    - intros [I D]. unfold l. rewrite !in_app_iff. right. right. apply in_map. apply filter_In. split; [exact I|apply diverges_iff; exact D]. }
  exists l, (match sd with Some _ => saved_files P org | None => [] end). split.
  - apply congruency_call; [assumption..|]. unfold compare_platforms. rewrite C1, C2. unfold l.
    rewrite !map_app, !map_map. reflexivity.
  - split; [intros f c I NF; apply INL in I; destruct f; [apply H1; exact I|apply H2; exact I|contradiction]|].
    split; [intros c I; apply DL in I; split; [apply A1|]; tauto|].
    split; [intros c NI O T; rewrite DL; cbn [finding_true]; split; [intros [_ D]; auto|intros [_ [_ [_ D]]]; split; [|exact D]; apply B1; [exact O|apply kept_iff; auto]]|].
    intro x. destruct sd as [[]|]; [rewrite (saved_iff P org l x DL); tauto|contradiction N3; reflexivity|].
    split; [intros []|intros [Q _]; discriminate Q].
Qed.
Print Assumptions C63_report_partial.

(** Exactly the true findings are reported, each once, if no name is listed
    twice and no two neighbours are removed. *)
Theorem C63_exact_partial :
  forall P sd, on_org P <> [] -> on_toolbox P <> [] -> sd <> Some false ->
  NoDup (on_org P) -> NoDup (on_toolbox P) ->
  spaced (on_toolbox P) (on_org P) -> spaced (on_org P) (on_toolbox P) ->
  exists l files, check_congruency P sd = (printed l, files, Ok tt) /\ NoDup l
  /\ (forall f c, In (f, c) l <-> finding_true P f c)
  /\ (forall x, In x files <-> sd = Some true /\ saved P l x).
Proof.
  intros P sd N1 N2 N3 D1 D2 S1 S2. apply spaced_apart in S1. apply spaced_apart in S2.
  set (org := filter (kept (on_toolbox P)) (on_org P)).
  assert (KO : forall c, In c (on_toolbox P) -> kept (on_org P) c = kept org c).
  { intros c I. apply eq_true_iff_eq. rewrite !kept_iff. unfold org. rewrite filter_In, kept_iff. tauto. }
  assert (C1 := compare_exact line_toolbox (on_toolbox P) (List.length (on_org P)) [] (on_org P) D1 S1 (le_n _)).
  assert (C2 := compare_exact line_org org (List.length (on_toolbox P)) [] (on_toolbox P) D2 (apart_ext _ _ _ KO S2) (le_n _)).
  cbn [List.length app] in C1, C2. fold org in C1.
  set (l := map (pair NotInToolbox) (filter (lost (on_toolbox P)) (on_org P)) ++ map (pair NotOnOrg) (filter (lost org) (on_toolbox P))
            ++ map (pair Different) (filter (diverges P) org)).
  assert (IN : forall f c, In (f, c) l <-> finding_true P f c).
  { intros f c. unfold l. rewrite !in_app_iff, !in_map_iff. split.
    - intros [[x [Q X]]|[[x [Q X]]|[x [Q X]]]]; injection Q as <- <-; apply filter_In in X; destruct X as [X Y]; cbn [finding_true].
      + apply lost_iff in Y. tauto.
      + apply lost_iff in Y. split; [tauto|]. split; [exact X|]. intro O. apply (proj2 Y). unfold org. apply filter_In.
        split; [exact O|]. apply kept_iff. tauto.
      + apply diverges_iff in Y. unfold org in X. apply filter_In in X. destruct X as [X K]. apply kept_iff in K. tauto.
    - destruct f; cbn [finding_true]; intro T.
      + left. exists c. split; [reflexivity|]. apply filter_In. rewrite lost_iff. tauto.
      + right. left. exists c. split; [reflexivity|]. apply filter_In. rewrite lost_iff. split; [tauto|]. split; [tauto|].
        unfold org. rewrite filter_In. tauto.
      + right. right. exists c. split; [reflexivity|]. apply filter_In. rewrite diverges_iff. unfold org. rewrite filter_In, kept_iff. tauto. }
  assert (ND : NoDup l).
  { assert (INJ : forall f xs, NoDup xs -> NoDup (map (@pair finding string f) xs)).
    { intros f xs H. apply FinFun.Injective_map_NoDup; [|exact H]. intros a b Q. injection Q as ->. reflexivity. }
    assert (DIS : forall (xs ys : list (finding * string)), NoDup xs -> NoDup ys -> (forall z, In z xs -> ~ In z ys) -> NoDup (xs ++ ys)).
    { clear. induction xs as [|x xs IH]; intros ys A B D; [exact B|]. cbn [app]. inversion A as [|? ? X1 X2]; subst. constructor.
      - rewrite in_app_iff. intros [I|I]; [exact (X1 I)|apply (D x); [left; reflexivity|exact I]].
      - apply IH; [exact X2|exact B|]. intros z I. apply D. right. exact I. }
    unfold l. apply DIS; [apply INJ, NoDup_filter, D1| |].
    - apply DIS; [apply INJ, NoDup_filter, D2|apply INJ, NoDup_filter, NoDup_filter, D1|].
      intros z I J. apply in_map_iff in I. apply in_map_iff in J. destruct I as [a [<- _]]. destruct J as [b [Q _]]. discriminate Q.
    - intros z I J. apply in_map_iff in I. destruct I as [a [<- _]]. apply in_app_iff in J. rewrite !in_map_iff in J.
      destruct J as [[b [Q _]]|[b [Q _]]]; discriminate Q. }
  exists l, (match sd with Some _ => saved_files P org | None => [] end). split.
  - apply congruency_call; [assumption..|]. unfold compare_platforms. rewrite C1, C2. unfold l.
    rewrite !map_app, !map_map. reflexivity.
  - split; [exact ND|]. split; [exact IN|]. intro x.
    destruct sd as [[]|]; [rewrite (saved_iff P org l x); [tauto|]|contradiction N3; reflexivity|split; [intros []|intros [Q _]; discriminate Q]].
    intro c. rewrite IN. cbn [finding_true]. unfold org. rewrite filter_In, kept_iff. tauto.
Qed.
Print Assumptions C63_exact_partial.

(** a platform without conventions and a missing directory are errors, nothing
    is saved *)
Theorem C63_errors :
  forall P sd, (on_org P = [] \/ on_toolbox P = [] \/ sd = Some false) <->
  exists t, check_congruency P sd = ([], [], Err (Exn EValueError t)).
Proof.
  intros P sd. unfold check_congruency. destruct sd as [[]|]; [| |].
  - destruct (on_org P) as [|a x]; [split; [eauto|auto]|]. destruct (on_toolbox P) as [|b y]; [split; [eauto|auto]|].
    destruct (compare_platforms P) as [org rep]. split; [intros [Q|[Q|Q]]; discriminate Q|intros [t Q]; discriminate Q].
  - split; [eauto|auto].
  - destruct (on_org P) as [|a x]; [split; [eauto|auto]|]. destruct (on_toolbox P) as [|b y]; [split; [eauto|auto]|].
    destruct (compare_platforms P) as [org rep]. split; [intros [Q|[Q|Q]]; discriminate Q|intros [t Q]; discriminate Q].
Qed.
Print Assumptions C63_errors.

Definition two_platforms : platforms :=
  Platforms ["A_1.0.csv"; "B_1.0.csv"; "General_1.0.csv"; "Z_1.0.csv"] ["A_1.0.csv"; "C_1.0.csv"; "Z_1.0.csv"]
    (fun c => "text of " +++ c +++ crlf) (fun c => (if String.eqb c "Z_1.0.csv" then "new " else "") +++ "text of " +++ c +++ nl).
Example C63_case :
  NoDup (on_org two_platforms) /\ NoDup (on_toolbox two_platforms)
  /\ finding_true two_platforms NotInToolbox "B_1.0.csv" /\ finding_true two_platforms Different "Z_1.0.csv"
  /\ ~ finding_true two_platforms Different "A_1.0.csv"
  /\ exists files, check_congruency
       (Platforms ["A_1.0.csv"; "B_1.0.csv"; "Z_1.0.csv"; "General_1.0.csv"] (on_toolbox two_platforms)
          (org_file two_platforms) (toolbox_file two_platforms)) (Some true)
     = (printed [(NotInToolbox, "B_1.0.csv"); (NotOnOrg, "C_1.0.csv"); (Different, "Z_1.0.csv")], files, Ok tt)
     /\ map fst files = ["sofaconventions/Z_1.0.csv"; "sofatoolbox/Z_1.0.csv"].
Proof.
  split; [repeat constructor; cbn; intuition discriminate|]. split; [repeat constructor; cbn; intuition discriminate|].
  assert (NI : forall c, excluded c = false -> ~ ignored c) by (intros c Q X; apply excluded_iff in X; rewrite X in Q; discriminate Q).
  split; [split; [apply NI; reflexivity|cbn; intuition discriminate]|].
  split; [split; [apply NI; reflexivity|]; split; [cbn; tauto|]; split; [cbn; tauto|]; vm_compute; discriminate|].
  split; [intros [_ [_ [_ D]]]; apply D; vm_compute; reflexivity|].
  eexists. split; vm_compute; reflexivity.
Qed.
Example C63_spaced_case :
  let org := ["A_1.0.csv"; "B_1.0.csv"; "Z_1.0.csv"; "General_1.0.csv"] in
  spaced (on_toolbox two_platforms) org /\ spaced org (on_toolbox two_platforms).
Proof.
  assert (NI : forall c, excluded c = false -> ~ ignored c) by (intros c Q X; apply excluded_iff in X; rewrite X in Q; discriminate Q).
  cbv zeta. cbn [spaced on_toolbox two_platforms]. repeat split;
    ((left; split; [apply NI; reflexivity|cbn; tauto]) || (right; split; [apply NI; reflexivity|cbn; tauto])).
Qed.

(** a convention that is missing on sofaconventions.org but follows an ignored
    one is not reported; one that is missing in the SOFAtoolbox is reported as
    different *)
Theorem C63_refuted :
  (let P := Platforms ["A_1.0.csv"] ["A_1.0.csv"; "General_1.0.csv"; "M_1.0.csv"] (fun c => c) (fun c => c) in
   finding_true P NotOnOrg "M_1.0.csv" /\ check_congruency P None = ([], [], Ok tt))
  /\ (let P := Platforms ["A_1.0.csv"; "General_1.0.csv"; "M_1.0.csv"] ["A_1.0.csv"] (fun c => c)
                 (fun c => if String.eqb c "A_1.0.csv" then c else "404: Not Found") in
      finding_true P NotInToolbox "M_1.0.csv"
      /\ check_congruency P None = (printed [(Different, "M_1.0.csv")], [], Ok tt)).
Proof.
  assert (NI : forall c, excluded c = false -> ~ ignored c) by (intros c Q X; apply excluded_iff in X; rewrite X in Q; discriminate Q).
  cbv zeta. split; (split; [split; [apply NI; reflexivity|cbn; intuition discriminate]|vm_compute; reflexivity]).
Qed.
Print Assumptions C63_refuted.
