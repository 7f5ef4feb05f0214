(** The rules, the units and the messages about conventions. *)
From Verif Require Import Base PyStr PyNum NdArray Sofa Verify SpecAttr SpecInit SpecVerify
  BaseFacts StrFacts AttrFacts OpFacts InitFacts ProtFacts AddDelFacts MissingFacts CoreFacts
  ValidFacts ShapeFacts.
From Coq Require Import NArith Lia.
Open Scope string_scope.
Open Scope list_scope.

(** ** Units *)
Lemma re_split_app u t : has_char "," u = false ->
  re_split_comma (u +++ String "," t) = u :: re_split_comma_aux t (String.prefix " " t).
Proof.
  unfold re_split_comma. induction u as [|c u IH]; intro H; [reflexivity|].
  cbn [has_char] in H. apply orb_false_iff in H. destruct H as [H1 H2].
  change (String c u +++ String "," t) with (String c (u +++ String "," t)).
  cbn [re_split_comma_aux]. rewrite Ascii.eqb_sym, H1, IH by exact H2. reflexivity.
Qed.

Lemma re_split_no u : has_char "," u = false -> re_split_comma u = [u].
Proof.
  unfold re_split_comma. induction u as [|c u IH]; intro H; [reflexivity|].
  cbn [has_char] in H. apply orb_false_iff in H. destruct H as [H1 H2].
  cbn [re_split_comma_aux]. rewrite Ascii.eqb_sym, H1, IH by exact H2. reflexivity.
Qed.

Lemma units_split l s : units l s -> re_split_comma s = l.
Proof.
  intro H. induction H as [u H|u l s H U IH|u l s H U IH N].
  - apply re_split_no. exact H.
  - change (", " +++ s) with (String "," (String " " s)). rewrite re_split_app by exact H.
    f_equal. replace (String.prefix " " (String " " s)) with true by (cbn; destruct s; reflexivity).
    exact IH.
  - change ("," +++ s) with (String "," s). rewrite re_split_app by exact H.
    f_equal. unfold startswith in N. rewrite N. exact IH.
Qed.

Lemma units_exist s : (exists l, units l s) /\ match s with String _ t => exists l, units l t | _ => True end.
Proof.
  induction s as [|c s [[l U] T]]; [split; [exists [""]; constructor; reflexivity|exact I]|].
  split; [|eauto].
  destruct (Ascii.eqb_spec c ",") as [->|N].
  - destruct (startswith " " s) eqn:P.
    + apply startswith_iff in P. destruct P as [r ->]. cbn in T. destruct T as [l' U'].
      exists ("" :: l'). apply (units_space "" l' r); [reflexivity|exact U'].
    + exists ("" :: l). apply (units_comma "" l s); [reflexivity|exact U|exact P].
  - assert (HC : forall u, has_char "," u = false -> has_char "," (String c u) = false).
    { intros u H. cbn [has_char]. rewrite H, orb_false_r. apply Ascii.eqb_neq. congruence. }
    inversion U as [u H|u l' s' H U'|u l' s' H U' P]; subst.
    + exists [String c s]. constructor. auto.
    + exists (String c u :: l'). apply (units_space (String c u) l' s'); auto.
    + exists (String c u :: l'). apply (units_comma (String c u) l' s'); auto.
Qed.

Lemma units_iff l s : units l s <-> re_split_comma s = l.
Proof.
  split; [apply units_split|]. intros <-. destruct (units_exist s) as [[l U] _].
  rewrite (units_split _ _ U). exact U.
Qed.

Lemma alias_list (al : dict string) us rs :
  Forall2 (fun u r => dget u al = Some r) us rs <->
  List.length rs = List.length us /\ forallb (fun p => match dget (fst p) al with
                                 | Some u => String.eqb u (snd p)
                                 | None => false
                                 end) (combine us rs) = true.
Proof.
  split.
  - intro F. induction F as [|u r us rs H F [I1 I2]]; [split; reflexivity|]. split; [cbn; congruence|].
    cbn [combine forallb fst snd]. rewrite H, eqb_refl_s. exact I2.
  - revert rs. induction us as [|u us IH]; intros [|r rs] [H1 H2]; cbn in H1; try discriminate; [constructor|].
    cbn [combine forallb fst snd] in H2. apply andb_true_iff in H2. destruct H2 as [H2 H3].
    destruct (dget u al) as [x|] eqn:G; [|discriminate]. apply String.eqb_eq in H2. subst.
    constructor; [exact G|]. apply IH. split; [congruence|exact H3].
Qed.

Lemma verify_unit_iff test ref al :
  verify_unit test ref al = Ok true <-> exists r, ref = [r] /\ same_units al test r.
Proof.
  unfold verify_unit, same_units. destruct ref as [|r [|]];
    [split; [discriminate|intros [? [? _]]; discriminate]| |split; [discriminate|intros [? [? _]]; discriminate]].
  split.
  - intro H. exists r. split; [reflexivity|].
    exists (re_split_comma test), (re_split_comma r).
    rewrite !units_iff. split; [reflexivity|]. split; [reflexivity|]. apply alias_list.
    destruct (Nat.eqb_spec (List.length (re_split_comma r)) (List.length (re_split_comma test))) as [L|L];
      cbn [negb] in H; [|discriminate]. split; [exact L|]. inversion H as [H']. rewrite H'. reflexivity.
  - intros [r' [Q [us [rs [U1 [U2 F]]]]]]. inversion Q; subst r'.
    apply units_iff in U1. apply units_iff in U2. rewrite U1, U2.
    apply alias_list in F. destruct F as [L F]. rewrite L, Nat.eqb_refl. cbn [negb]. rewrite F. reflexivity.
Qed.

Lemma verify_value_iff E key v ref :
  verify_value v (Some ref) (aliases E) key = Ok true <->
  exists b s, v = VStr b s /\ allowed E key s ref.
Proof.
  unfold verify_value. destruct v as [b s|e|a|l]; try (split; [discriminate|intros [? [? [? _]]]; discriminate]).
  transitivity (smem s ref = true
   \/ (key <> "GLOBAL_DataType" /\ key <> "GLOBAL_SOFAConventions"
      /\ (smem (lower s) ref = true
          \/ (endswith "Units" key = true /\ verify_unit (lower s) ref (aliases E) = Ok true)))).
  2:{ transitivity (allowed E key s ref).
      - unfold allowed. rewrite <- verify_unit_iff, !smem_In. reflexivity.
      - split; [intro H; exists b, s; auto|]. intros [b' [s' [Q H]]]. inversion Q; subst. exact H. }
  assert (K : smem key ["GLOBAL_DataType"; "GLOBAL_SOFAConventions"] = false
    <-> key <> "GLOBAL_DataType" /\ key <> "GLOBAL_SOFAConventions").
  { rewrite smem_false. cbn [In]. intuition congruence. }
  destruct (smem s ref); [tauto|].
  destruct (smem key ["GLOBAL_DataType"; "GLOBAL_SOFAConventions"]).
  - assert (X : true = false <-> False) by (split; [discriminate|tauto]). rewrite X in K.
    split; [discriminate|]. intros [H|[H1 [H2 _]]]; [discriminate|]. tauto.
  - destruct (proj1 K eq_refl) as [K1 K2]. destruct (smem (lower s) ref); [tauto|].
    destruct (endswith "Units" key).
    + intuition discriminate.
    + split; [discriminate|]. intros [H|[_ [_ [H|[H _]]]]]; discriminate.
Qed.

Lemma sofar_name_eq k : sofar_name k = python_name k.
Proof.
  unfold sofar_name, python_name. induction k as [|c k IH]; [reflexivity|].
  cbn [replace_char smap]. rewrite IH. f_equal.
  rewrite (Ascii.eqb_sym c ":"), (Ascii.eqb_sym c ".").
  destruct (Ascii.eqb_spec "." c) as [<-|]; [reflexivity|]. destruct (Ascii.eqb ":" c); reflexivity.
Qed.

Lemma hasattr_contained o k : not_method k -> hasattr o (sofar_name k) = true <-> contained o (python_name k).
Proof.
  intro N. unfold hasattr, contained. rewrite sofar_name_eq, orb_true_iff, dmem_In, smem_In.
  unfold not_method in N. tauto.
Qed.

Lemma bullet_nil (b : bool) s : (if b then "" else "-" +++ s) = "" <-> b = true.
Proof. destruct b; [tauto|]. split; discriminate. Qed.

Section Rules.
Context (E : env) (cv : convention) (o o1 : sofa) (a : dict nat)
  (RP : pub o1 = pub o) (SZ : forall x n, dget x a = Some n <-> size cv o x n).

Lemma getattr_name k v : dget (python_name k) (pub o) = Some v ->
  getattr o1 (sofar_name k) = Ok v.
Proof. intro G. unfold getattr. rewrite sofar_name_eq, RP, G. reflexivity. Qed.

Lemma check_dep_iff key test kd : not_method (fst kd) ->
  check_dep E o1 a key test kd = Ok "" <-> dep_ok E cv o kd.
Proof.
  intro NM. unfold check_dep, dep_ok. destruct kd as [k [l|ref]]; cbn [fst snd] in *.
  - rewrite rconcat_nil. split.
    + intros H x ns t I. specialize (H _ I). cbn [fst snd] in H. apply rbind_Ok in H.
      destruct H as [n [H1 H2]]. exists n. unfold dgetE in H1.
      destruct (dget x a) eqn:G; [|discriminate]. inversion H1; subst. split; [apply SZ; exact G|].
      destruct (nat_mem n ns) eqn:M; [|discriminate].
      unfold nat_mem in M. apply existsb_exists in M. destruct M as [y [M1 M2]].
      apply Nat.eqb_eq in M2. subst. exact M1.
    + intros H [x [ns t]] I. cbn [fst snd]. destruct (H x ns t I) as [n [H1 H2]]. apply SZ in H1.
      unfold dgetE. rewrite H1. cbn [rbind].
      replace (nat_mem n ns) with true; [reflexivity|]. symmetry. unfold nat_mem. apply existsb_exists.
      exists n. split; [exact H2|apply Nat.eqb_refl].
  - assert (HC := hasattr_contained o1 k NM). unfold contained in *. rewrite RP in HC.
    destruct (hasattr o1 (sofar_name k)) eqn:HA; cbn [negb].
    + assert (I := proj1 HC eq_refl). apply dget_Some_In in I. destruct I as [v G].
      destruct ref as [ref|].
      * rewrite (getattr_name k v G). cbn [rbind]. rewrite sofar_name_eq. unfold allowed_value. rewrite G.
        split.
        -- intro H. apply rbind_Ok in H. destruct H as [b [H1 H2]]. destruct b; [|discriminate].
           apply verify_value_iff in H1. destruct H1 as [b [s [-> H1]]]. exists b, s. auto.
        -- intros [b [s [Q H]]]. inversion Q; subst.
           rewrite (proj2 (verify_value_iff E (python_name k) (VStr b s) ref)) by eauto. reflexivity.
      * split; [|reflexivity]. intros _. apply dget_Some_In. eauto.
    + assert (NI : dget (python_name k) (pub o) = None).
      { apply dget_None. intro I. apply HC in I. discriminate. }
      split; [discriminate|]. destruct ref as [ref|].
      * unfold allowed_value. rewrite NI. intros [b [s [H _]]]. discriminate.
      * intro I. apply dget_Some_In in I. destruct I as [v G]. congruence.
Qed.

Lemma dep_test_case b s : exists b', dep_test (VStr b s) = VStr b' (dep_case s).
Proof. unfold dep_test, dep_case. destruct (smem (lower s) _); eauto. Qed.

Lemma check_rule_iff k r : In (k, r) (rules E) -> rules_tidy E ->
  check_rule E o1 a (k, r) = Ok "" <-> rule_ok E cv o (python_name k) r.
Proof.
  intros IR RT. destruct (RT k r IR) as [NM [NG NS]].
  unfold check_rule, rule_ok. cbn [fst snd].
  assert (HC := hasattr_contained o1 k NM). unfold contained in HC. rewrite RP in HC.
  destruct (hasattr o1 (sofar_name k)) eqn:HA; cbn [negb].
  2:{ split; [|reflexivity]. intros _ v G. exfalso.
      assert (false = true) by (apply HC; apply dget_Some_In; eauto). discriminate. }
  assert (I := proj1 HC eq_refl). apply dget_Some_In in I. destruct I as [v G].
  rewrite (getattr_name k v G). cbn [rbind].
  assert (GE : (forall g, In g (r_general r) -> contained o (python_name g)) <->
     sconcat (fun kd : string => let kd := sofar_name kd in
        if hasattr o1 kd then "" else
          "- " +++ kd +++ " must be given if " +++ sofar_name k +++ " is in SOFA object" +++ nl)
        (r_general r) = "").
  { rewrite sconcat_nil. split.
    - intros H g Ig. cbv zeta. assert (X := proj2 (hasattr_contained o1 g (NG g Ig))).
      unfold contained in X. rewrite RP in X. rewrite (X (H g Ig)). reflexivity.
    - intros H g Ig. specialize (H g Ig). cbv zeta in H.
      destruct (hasattr o1 (sofar_name g)) eqn:HG; [|discriminate].
      apply (hasattr_contained o1 g (NG g Ig)) in HG. unfold contained in *. rewrite RP in HG. exact HG. }
  assert (VA : (exists ok, verify_value v (r_value r) (aliases E) (sofar_name k) = Ok ok /\ ok = true) <->
     forall ref, r_value r = Some ref -> allowed_value E o (python_name k) ref).
  { rewrite sofar_name_eq. destruct (r_value r) as [ref|].
    - split.
      + intros [ok [H ->]] ref' Q. inversion Q; subst. apply verify_value_iff in H.
        destruct H as [b [s [-> H]]]. exists b, s. auto.
      + intro H. destruct (H ref eq_refl) as [b [s [Q A]]]. rewrite G in Q. inversion Q; subst.
        exists true. split; [|reflexivity]. apply verify_value_iff. eauto.
    - split; [intros _ ref Q; discriminate|]. intros _. exists true. split; reflexivity. }
  assert (SP : forall test, test = dep_test v ->
     (let? items := specific_items r test in rconcat (check_dep E o1 a (sofar_name k) test) items) = Ok "" <->
     forall sp, r_specific r = Some sp -> (forall ar, v <> VArr ar)
       /\ forall b s items kd, v = VStr b s -> dget (dep_case s) sp = Some items ->
               In kd items -> dep_ok E cv o kd).
  { intros test ->. unfold specific_items. destruct (r_specific r) as [sp|] eqn:RS.
    2:{ cbn. split; [intros _ sp Q; discriminate|reflexivity]. }
    destruct v as [b s|e|ar|l].
    - destruct (dep_test_case b s) as [b' ->]. cbn [rbind]. rewrite rconcat_nil. split.
      + intros H sp' Q. inversion Q; subst sp'. split; [discriminate|].
        intros b0 s0 items kd Q2 D Ik. inversion Q2; subst. apply (check_dep_iff (sofar_name k) (VStr b' (dep_case s0))).
        * apply dget_In in D. apply (NS sp (dep_case s0) items kd); auto.
        * apply H. rewrite D. exact Ik.
      + intros H kd Ik. destruct (H sp eq_refl) as [_ H'].
        destruct (dget (dep_case s) sp) as [items|] eqn:D; [|destruct Ik].
        apply check_dep_iff; [|eapply H'; eauto]. apply dget_In in D. apply (NS sp (dep_case s) items kd); auto.
    - cbn. split; [|reflexivity]. intros _ sp' _. split; [discriminate|]. intros; discriminate.
    - cbn. split; [discriminate|]. intro H. destruct (H sp eq_refl) as [H1 _]. destruct (H1 ar eq_refl).
    - cbn. split; [|reflexivity]. intros _ sp' _. split; [discriminate|]. intros; discriminate. }
  specialize (SP _ eq_refl).
  split.
  - intros H v' G'. rewrite G in G'. inversion G'; subst v'.
    apply rbind_Ok in H. destruct H as [ok [H1 H]]. cbv zeta in H.
    apply rbind_Ok in H. destruct H as [items [H2 H]]. apply rbind_Ok in H. destruct H as [e3 [H3 H]].
    inversion H as [H']. apply sapp_eq_nil in H'. destruct H' as [X1 H'].
    apply sapp_eq_nil in H'. destruct H' as [X2 X3]. subst e3.
    split; [apply VA; exists ok; split; [exact H1|destruct ok; [reflexivity|discriminate]]|].
    split; [apply GE; exact X2|]. apply SP. rewrite H2. exact H3.
  - intro H. destruct (H v G) as [K1 [K2 K3]].
    apply VA in K1. destruct K1 as [ok [K1 ->]]. rewrite K1. cbn [rbind].
    apply SP in K3. apply rbind_Ok in K3. destruct K3 as [items [K3 K4]]. rewrite K3. cbn [rbind]. rewrite K4.
    cbn [rbind]. apply GE in K2. cbv zeta in K2 |- *. rewrite K2. reflexivity.
Qed.

Lemma units_case_iff : NoDup (dkeys (pub o)) ->
  check_units o1 = Ok "" <-> forall k w, dget k (pub o) = Some w -> endswith "Units" k = true ->
    exists b s, w = VStr b s /\ lower s = s.
Proof.
  intro ND. unfold check_units. rewrite rconcat_nil, RP. split.
  - intros H k w G U. specialize (H (k, w)). rewrite filter_In in H. cbn [fst snd] in H.
    specialize (H (conj (dget_In _ _ _ G) U)). destruct w as [b s|e|ar|l]; try discriminate.
    exists b, s. split; [reflexivity|]. destruct (String.eqb_spec (lower s) s) as [Q|Q]; [exact Q|discriminate].
  - intros H [k w] I. apply filter_In in I. destruct I as [I U]. cbn [fst snd] in *.
    destruct (H k w (In_dget _ _ _ ND I) U) as [b [s [-> L]]]. rewrite L, eqb_refl_s. reflexivity.
Qed.
End Rules.
