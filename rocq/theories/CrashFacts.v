(** verify reports all problems of checkable objects. *)
From Verif Require Import Base PyStr PyNum NdArray Sofa Verify SpecAttr SpecInit SpecVerify SpecCrash
  BaseFacts StrFacts AttrFacts OpFacts InitFacts ProtFacts AddDelFacts MissingFacts CoreFacts
  ValidFacts ShapeFacts RuleFacts VerifyFacts DictFacts IssueFacts DimFacts.
From Coq Require Import NArith Lia.
Open Scope string_scope.
Open Scope list_scope.

Lemma rconcat_total {A} (f : A -> res string) l : (forall x, In x l -> exists t, f x = Ok t) -> exists t, rconcat f l = Ok t.
Proof.
  induction l as [|x l IH]; intro H; cbn [rconcat]; [eexists; reflexivity|].
  destruct (H x (or_introl eq_refl)) as [t ->]. destruct IH as [u ->]; [intros y I; apply H; right; exact I|].
  eexists. reflexivity.
Qed.

Lemma rmap_total {A B} (f : A -> res B) l : (forall x, In x l -> exists t, f x = Ok t) -> exists t, rmap f l = Ok t.
Proof.
  induction l as [|x l IH]; intro H; cbn [rmap]; [eexists; reflexivity|].
  destruct (H x (or_introl eq_refl)) as [t ->]. destruct IH as [u ->]; [intros y I; apply H; right; exact I|].
  eexists. reflexivity.
Qed.

(** ** Letters of dimension strings *)
Lemma split_comma_chars s : forall p c, In p (split "," s) -> In c (chars p) -> In c (chars s) /\ c <> ","%char.
Proof.
  unfold split. induction s as [|a s IH]; intros p c IP IC.
  - destruct IP as [<-|[]]. destruct IC.
  - cbn [split_aux String.length Nat.sub] in IP. destruct (String.prefix "," (String a s)) eqn:P.
    + destruct IP as [<-|IP]; [destruct IC|]. destruct (IH p c IP IC) as [I N]. split; [right; exact I|exact N].
    + assert (NA : a <> ","%char) by (intros ->; cbn in P; destruct s; discriminate P).
      destruct (split_aux "," s 0) as [|h r] eqn:Q.
      * destruct IP as [<-|[]]. destruct IC as [<-|[]]. split; [left; reflexivity|exact NA].
      * destruct IP as [<-|IP].
        -- destruct IC as [<-|IC]; [split; [left; reflexivity|exact NA]|].
           destruct (IH h c (or_introl eq_refl) IC) as [I N]. split; [right; exact I|exact N].
        -- destruct (IH p c (or_intror IP) IC) as [I N]. split; [right; exact I|exact N].
Qed.

Lemma no_spaces s : forall c, In c (chars (replace " " "" s)) -> In c (chars s) /\ c <> " "%char.
Proof.
  unfold replace. induction s as [|a s IH]; intros c I; [destruct I|].
  cbn [replace_aux String.length Nat.sub append] in I. destruct (String.prefix " " (String a s)) eqn:P.
  - destruct (IH c I) as [X N]. split; [right; exact X|exact N].
  - destruct I as [<-|I]; [|destruct (IH c I) as [X N]; split; [right; exact X|exact N]].
    split; [left; reflexivity|]. intros ->. cbn in P. destruct s; discriminate P.
Qed.

Lemma split2_chars s : forall k c, (k = 0 \/ (k = 1 /\ exists t, s = String " " t)) ->
  In c (chars s) -> c <> ","%char -> c <> " "%char -> exists p, In p (split_aux ", " s k) /\ In c (chars p).
Proof.
  induction s as [|a s IH]; intros k c K IC N1 N2; [destruct IC|]. cbn [split_aux].
  destruct K as [->|[-> [t Q]]].
  - destruct (String.prefix ", " (String a s)) eqn:P.
    + cbn [String.prefix] in P. destruct (Ascii.ascii_dec "," a) as [<-|]; [|discriminate P].
      destruct IC as [<-|IC]; [congruence|]. destruct s as [|b s]; [discriminate P|].
      cbn [String.prefix] in P. destruct (Ascii.ascii_dec " " b) as [<-|]; [|discriminate P].
      destruct (IH 1 c) as [p [I J]]; [right; eauto|exact IC|exact N1|exact N2|]. exists p. split; [right; exact I|exact J].
    + destruct (split_aux ", " s 0) as [|h r] eqn:Q.
      * destruct IC as [<-|IC]; [exists (String a ""); split; left; reflexivity|].
        destruct (IH 0 c (or_introl eq_refl) IC N1 N2) as [p [I _]]. rewrite Q in I. destruct I.
      * destruct IC as [<-|IC]; [exists (String a h); split; left; reflexivity|].
        destruct (IH 0 c (or_introl eq_refl) IC N1 N2) as [p [I J]]. rewrite Q in I. destruct I as [<-|I].
        -- exists (String a h). split; [left; reflexivity|right; exact J].
        -- exists p. split; [right; exact I|exact J].
  - injection Q as -> _. destruct IC as [<-|IC]; [congruence|]. apply IH; auto.
Qed.

Lemma upper_in s c : In c (chars (upper s)) -> exists x, In x (chars s) /\ c = upper_char x.
Proof.
  unfold upper. induction s as [|a s IH]; intro I; [destruct I|]. destruct I as [<-|I].
  - exists a. split; [left|]; reflexivity.
  - destruct (IH I) as [x [X Q]]. exists x. split; [right; exact X|exact Q].
Qed.

(** ** The checks *)
Section Crash.
Context (E : env) (m : vmode) (cv : convention) (o o1 : sofa) (R : reset_to cv o o1)
  (DB : db_ok E) (RT : rules_tidy E) (DO : dicts_ok o) (CV : convention_of E o cv)
  (DE : forall k, contained o k -> declared cv o k <> None).

Let RC := rt_conv _ _ _ R.
Let RP := rt_pub _ _ _ R.

Lemma found_entry k : In k (dkeys (pub o1)) -> exists e v, dgetE k (conv o1) = Ok e /\ getattr o1 k = Ok v.
Proof.
  intro I. unfold dgetE, getattr. rewrite RC, RP in *. assert (I' := I). apply dget_Some_In in I'. destruct I' as [v ->].
  destruct (declared cv o k) as [e|] eqn:D; [eauto|]. destruct (DE k I D).
Qed.

Lemma types_total : exists t, type_errors E o1 (dkeys (pub o1)) = Ok t.
Proof.
  apply rconcat_total. intros k I. destruct (found_entry k I) as [e [v [-> ->]]]. cbn [rbind]. eauto.
Qed.

Lemma names_total : exists t, name_errors o1 (dkeys (pub o1)) = Ok t.
Proof.
  unfold name_errors. assert (IA : forall k, In k (dkeys (pub o1)) -> exists b, is_attribute (conv o1) k = Ok b).
  { intros k I. unfold is_attribute. destruct (found_entry k I) as [e [v [-> _]]]. cbn [rbind]. eauto. }
  assert (BI : forall f, (forall k b, is_attribute (conv o1) k = Ok b -> exists x, f k = Ok x) -> exists t, bullets_if f (dkeys (pub o1)) = Ok t).
  { intros f H. apply rconcat_total. intros k I. destruct (IA k I) as [b B]. destruct (H k b B) as [x ->]. cbn [rbind]. eauto. }
  destruct (BI (orphan_attribute (conv o1))) as [t1 ->]; [intros k b B; unfold orphan_attribute; rewrite B; cbn [rbind]; eauto|].
  destruct (BI (plain_attribute (conv o1))) as [t2 ->]; [intros k b B; unfold plain_attribute; rewrite B; cbn [rbind]; eauto|].
  destruct (BI (bad_variable (conv o1))) as [t3 ->]; [intros k b B; unfold bad_variable; rewrite B; cbn [rbind]; eauto|].
  cbn [rbind].
  match goal with |- context[rconcat ?f ?l] => destruct (rconcat_total f l) as [t4 ->] end; [|cbn [rbind]; eauto].
  intros k I. destruct (IA k I) as [b B]. unfold bad_global. rewrite B. cbn [rbind]. eauto.
Qed.

Context (TY : well_typed cv o) (CK : checkable E m o cv).

Lemma custom_total : exists ev t, cust_check (normative_keys E) o1 = (ev, Ok t).
Proof.
  unfold cust_check. assert (RU := rt_custom _ _ _ R). destruct (ck_new _ _ _ _ CK) as [CN|[b [c [b' [v [G1 [G2 OK]]]]]]].
  - rewrite RU, CN. cbn [option_map]. eauto.
  - destruct (custom o1) as [cu|]; [|eauto]. unfold getattr. rewrite RP, G1, G2. unfold normative_keys.
    destruct (sofa_init E c false v VAuto) as [ev [x|x]]; [|discriminate OK]. cbn [fst snd rbind]. eauto.
Qed.

Lemma dims_total : exists s d t, detect o1 = (s, Ok tt) /\ dims_pure o1 = (fixed_sizes s, d, Ok t).
Proof.
  assert (NL := types_no_lists cv o TY).
  assert (SZD := ck_sized _ _ _ _ CK). assert (SZD' := SZD).
  apply (sized_iff cv o o1 R DO NL) in SZD'. destruct SZD' as [s HD].
  assert (SZ := sizes_iff cv o o1 R DO NL s HD).
  unfold dims_pure. rewrite HD. cbv zeta. rewrite (dim_keys_eq cv o o1 R).
  assert (CS : forall k, In k (variables cv o) -> exists x, check_shape o1 (fixed_sizes s) k = Ok x).
  { intros k IV. destruct (variables_declared cv o DO k IV) as [e [d [D ED]]].
    assert (CT := proj1 SZD k IV). apply dget_Some_In in CT. destruct CT as [v G].
    destruct (TY k v G) as [e' [D' T]]. rewrite D in D'. injection D' as <-.
    assert (CO : exists act, compared_shape (e_type e) d v act).
    { destruct T as [[T _]|[[T _]|[T _]]].
      - destruct (ck_texts _ _ _ _ CK k e v IV D G) as [sh [ls ST]]; [rewrite T; discriminate|]. exists sh. eapply cs_string; eauto.
      - destruct (Nat.lt_ge_cases 1 (String.length (hd "" (split "," d)))) as [L|L]; eexists; [eapply cs_multi|eapply cs_single]; try exact L; rewrite T; discriminate.
      - destruct (ck_texts _ _ _ _ CK k e v IV D G) as [sh [ls ST]]; [rewrite T; discriminate|]. exists sh. eapply cs_string; eauto. }
    destruct CO as [act CO]. apply (shape_act_iff cv o o1 R NL k e d v act D ED G) in CO.
    unfold check_shape. rewrite CO. unfold dims_of, dgetE. rewrite RC, D. cbn [rbind]. rewrite ED. cbn [rbind]. cbv zeta.
    assert (LK := fun alt I => ck_letters _ _ _ _ CK k e d alt IV D ED I). unfold alternatives in LK.
    assert (MA : exists r, match_alt (fixed_sizes s) act (split ", " d) = Ok r).
    { revert LK. induction (split ", " d) as [|alt l IH]; intro LK; cbn [match_alt]; [eauto|].
      destruct (proj2 (letters_iff cv o o1 R DO NL s HD alt) (LK alt (or_introl eq_refl))) as [r ->]. cbn [rbind].
      destruct (shape_eqb _ _); [eauto|]. apply IH. intros x I. apply LK. right. exact I. }
    destruct MA as [[dm|] ->]; cbn [rbind]; [eauto|].
    assert (DV : exists t, dims_verbose (fixed_sizes s) d = Ok t).
    { unfold dims_verbose. match goal with |- context[rmap ?f ?l] => destruct (rmap_total f l) as [y ->] end; [|cbn [rbind]; eauto].
      intros alt IA. match goal with |- context[rmap ?f ?l] => destruct (rmap_total f l) as [y ->] end; [|cbn [rbind]; eauto].
      intros c IC. destruct (split_comma_chars _ _ _ IA IC) as [I1 N1]. destruct (no_spaces _ _ I1) as [I2 N2].
      destruct (upper_in _ _ I2) as [x [IX ->]].
      assert (x <> ","%char) by (intros ->; apply N1; reflexivity). assert (x <> " "%char) by (intros ->; apply N2; reflexivity).
      destruct (split2_chars d 0 x (or_introl eq_refl) IX) as [p [IP XP]]; [assumption..|].
      assert (XS : exists n, dget (str1 (upper_char x)) (fixed_sizes s) = Some n).
      { destruct (LK p IP x) as [n EX]; [apply has_char_In; exact XP|]. unfold extent in EX. destruct (Ascii.eqb_spec x "S") as [->|NS].
        - unfold fixed_sizes. exists (snd s). apply dget_dset_same.
        - exists n. apply SZ. exact EX. }
      destruct XS as [n XS]. unfold dgetE. rewrite XS. cbn [rbind]. eauto. }
    destruct DV as [t ->]. cbn [rbind]. eauto. }
  assert (SH : forall ks d err, (forall k, In k ks -> In k (variables cv o)) -> exists d' t, check_shapes o1 (fixed_sizes s) ks d err = (d', Ok t)).
  { induction ks as [|k ks IH]; intros d err H; cbn [check_shapes]; [eauto|].
    destruct (CS k (H k (or_introl eq_refl))) as [[[dm|] msg] ->]; apply IH; intros j J; apply H; right; exact J. }
  destruct (SH (variables cv o) [] "" (fun _ I => I)) as [d [t Q]]. exists s, d, t. split; [reflexivity|]. rewrite Q. reflexivity.
Qed.

Lemma attribute_text k v : attribute_if_contained cv o k -> dget k (pub o) = Some v -> exists b t, v = VStr b t.
Proof.
  intros A G. destruct A as [e [D T]]; [apply dget_Some_In; eauto|]. destruct (TY k v G) as [e' [D' H]].
  rewrite D in D'. injection D' as <-. rewrite T in H. destruct H as [[_ H]|[[H _]|[H _]]]; [exact H|discriminate H|discriminate H].
Qed.

Lemma value_total k v ref al : (ref <> None -> exists b t, v = VStr b t) -> (forall r, ref = Some r -> reference_ok k r) ->
  exists b, verify_value v ref al k = Ok b.
Proof.
  intros T RO. destruct ref as [ref|]; [|eexists; reflexivity]. destruct T as [b [t ->]]; [discriminate|]. cbn [verify_value].
  destruct (smem t ref); [eauto|]. destruct (smem k _); [eauto|]. destruct (smem (lower t) ref); [eauto|].
  destruct (endswith "Units" k) eqn:U; [|eauto]. destruct (RO ref eq_refl U) as [u ->]. unfold verify_unit.
  destruct (negb _); eauto.
Qed.

Lemma hasattr_get k : not_method k -> hasattr o1 (sofar_name k) = true -> exists v, dget (python_name k) (pub o) = Some v /\ getattr o1 (sofar_name k) = Ok v.
Proof.
  intros NM H. apply (hasattr_contained o1 k NM) in H. unfold contained in H. rewrite RP in H. apply dget_Some_In in H.
  destruct H as [v G]. exists v. split; [exact G|]. apply (getattr_name o o1 RP). exact G.
Qed.

Lemma rules_total a d : (forall x n, dget x a = Some n <-> size cv o x n) ->
  exists t, rconcat (check_rule E (set_dims o1 a d) a) (rules E) = Ok t.
Proof.
  intro SZ. apply rconcat_total. intros [k r] IR. destruct (RT k r IR) as [NM [NG NS]].
  destruct (ck_rules _ _ _ _ CK k r IR) as [K1 [K2 K3]].
  unfold check_rule. cbn [fst snd]. change (hasattr (set_dims o1 a d) (sofar_name k)) with (hasattr o1 (sofar_name k)).
  destruct (hasattr o1 (sofar_name k)) eqn:HA; cbn [negb]; [|eauto].
  destruct (hasattr_get k NM HA) as [v [G GA]]. change (getattr (set_dims o1 a d) (sofar_name k)) with (getattr o1 (sofar_name k)).
  rewrite GA. cbn [rbind]. rewrite sofar_name_eq in *.
  destruct (value_total (python_name k) v (r_value r) (aliases E)) as [b ->].
  { intro NR. apply (attribute_text (python_name k) v); [apply K1; left; exact NR|exact G]. }
  { exact K2. }
  cbn [rbind]. cbv zeta. unfold specific_items. destruct (r_specific r) as [sp|] eqn:SP; [|cbn [rbind rconcat]; eauto].
  destruct (attribute_text (python_name k) v) as [bb [t ->]]; [apply K1; right; discriminate|exact G|].
  destruct (dep_test_case bb t) as [b' ->]. cbn [rbind].
  destruct (dget (dep_case t) sp) as [items|] eqn:GI; [|cbn [rconcat rbind]; eauto].
  match goal with |- context[rconcat ?f ?l] => destruct (rconcat_total f l) as [y ->] end; [|cbn [rbind]; eauto].
  intros kd ID. assert (K := K3 sp bb t items kd eq_refl G GI ID). apply dget_In in GI. unfold check_dep.
  destruct kd as [kk [l|ref]]; cbn [fst snd] in *.
  - apply rconcat_total. intros [dd [ns tt']] IL. cbn [fst snd]. destruct (K dd ns tt' IL) as [n S1]. apply SZ in S1.
    unfold dgetE. rewrite S1. cbn [rbind]. eauto.
  - change (hasattr (set_dims o1 a d) (sofar_name kk)) with (hasattr o1 (sofar_name kk)).
    assert (NK : not_method kk) by (apply (NS sp (dep_case t) items (kk, DepVal ref) eq_refl GI ID)).
    destruct (hasattr o1 (sofar_name kk)) eqn:HK; cbn [negb]; [|eauto]. destruct ref as [ref|]; [|eauto].
    destruct (hasattr_get kk NK HK) as [w [GW GWA]]. change (getattr (set_dims o1 a d) (sofar_name kk)) with (getattr o1 (sofar_name kk)).
    rewrite GWA. cbn [rbind]. rewrite sofar_name_eq in *.
    destruct (value_total (python_name kk) w (Some ref) (aliases E)) as [x ->]; [| |cbn [rbind]; eauto].
    + intros _. apply (attribute_text (python_name kk) w); [apply K|exact GW].
    + intros q Q. injection Q as <-. apply K.
Qed.

Lemma units_total a d : m = VWrite -> exists t, check_units (set_dims o1 a d) = Ok t.
Proof.
  intro W. unfold check_units. apply rconcat_total. intros [k v] I. apply filter_In in I. destruct I as [I U]. cbn [fst snd] in *.
  change (pub (set_dims o1 a d)) with (pub o1) in I. rewrite RP in I.
  apply (In_dget _ _ _ (proj1 DO)) in I. destruct (attribute_text k v) as [b [t ->]]; [apply (ck_units _ _ _ _ CK W k U)|exact I|]. eauto.
Qed.

Lemma core_total : exists o' ev e w, core (normative_keys E) E m (dkeys (pub o1)) o1 = (o', ev, Ok (e, w)).
Proof.
  unfold core. destruct names_total as [t1 ->]. destruct custom_total as [ev [t2 ->]].
  destruct dims_total as [s [d [t3 [HD ->]]]]. cbn [rbind].
  assert (SZ := sizes_iff cv o o1 R DO (types_no_lists cv o TY) s HD).
  unfold late_check. destruct (rules_total (fixed_sizes s) d SZ) as [t4 ->]. cbn [rbind].
  assert (U : exists t, (if m_write m then check_units (set_dims o1 (fixed_sizes s) d) else Ok "") = Ok t).
  { destruct (m_write m) eqn:MM; [|eauto]. apply units_total. clear -MM. destruct m; [reflexivity|discriminate MM]. }
  destruct U as [t5 ->]. cbn [rbind]. unfold deprecation_msg, preliminary_msg, getattr.
  change (pub (set_dims o1 (fixed_sizes s) d)) with (pub o1). rewrite RP.
  destruct CV as [b [c [w [ct [G1 [G2 [HF _]]]]]]]. rewrite G1, G2. cbn [rbind].
  destruct (has_file_version E c (py_str E w) ct DB HF) as [_ [NV _]].
  assert (PF : exists n, parse_float (py_str E w) = Some n).
  { clear -NV. unfold float_str in NV. destruct (parse_float (py_str E w)) as [n|]; [eauto|discriminate NV]. }
  destruct PF as [n ->]. cbn [rbind fst snd]. eexists _, _, _, _. reflexivity.
Qed.
End Crash.

(** a problem is reported, nothing else is raised *)
Lemma checked_total E m cv o o1 ign pe pw : reset_to cv o o1 -> db_ok E -> rules_tidy E -> dicts_ok o ->
  convention_of E o cv -> (forall k, contained o k -> declared cv o k <> None) ->
  (ign = true -> well_typed cv o) -> (pe = "" \/ ign = true -> well_typed cv o -> checkable E m o cv) ->
  exists o' ev e w, checked (normative_keys E) E m ign pe pw (dkeys (pub o1)) o1 = (o', ev, Ok (e, w)).
Proof.
  intros R DB RT DO CV DE WI CK. unfold checked.
  destruct (types_total E cv o o1 R DE) as [t T]. rewrite T. cbv zeta.
  destruct (_ && _) eqn:B; [eauto|].
  assert (W : well_typed cv o /\ (pe = "" \/ ign = true)).
  { destruct ign; [split; [apply WI; reflexivity|right; reflexivity]|].
    rewrite Bool.andb_true_r in B. apply Bool.negb_false_iff in B. apply String.eqb_eq in B.
    apply sapp_eq_nil in B. destruct B as [-> B]. apply section_nil in B; [|discriminate]. subst t.
    split; [|left; reflexivity]. exact (proj1 (types_iff E cv o o1 R) T). }
  destruct W as [W P].
  destruct (core_total E m cv o o1 R DB RT DO CV DE W (CK P W)) as [o' [ev [e [w ->]]]].
  cbn [rbind]. eauto 8.
Qed.

Lemma unique_reset E o cv : db_ok E -> dicts_ok o -> convention_of E o cv ->
  exists o1, reset_convention E o = (o1, [], Ok tt) /\ reset_to cv o o1.
Proof.
  intros DB DO CV. destruct (reset_iff E o DB DO) as [R1 R2].
  assert (CV' := CV). destruct CV' as [b [c [w [ct [G1 [G2 [G3 _]]]]]]].
  destruct (R2 b c w ct G1 G2 G3) as [o1 R]. exists o1. split; [exact R|].
  destruct (R1 o1 R) as [b' [c' [w' [ct' [H1 [H2 [H3 H4]]]]]]].
  rewrite <- (convention_unique E o cv (sofar_keys ct') DB CV); [exact H4|]. exists b', c', w', ct'. auto.
Qed.

(** ** A decision procedure, used in examples *)
Definition attributeb (cv : convention) (o : sofa) (k : string) : bool :=
  negb (smem k (dkeys (pub o)))
  || match declared cv o k with Some e => String.eqb (e_type e) "attribute" | None => false end.
Lemma attributeb_ok cv o k : attributeb cv o k = true -> attribute_if_contained cv o k.
Proof.
  intros H C. unfold attributeb in H. apply smem_In in C. rewrite C in H. cbn [negb orb] in H.
  destruct (declared cv o k) as [e|]; [|discriminate H]. exists e. split; [reflexivity|]. apply String.eqb_eq. exact H.
Qed.

Definition referenceb (k : string) (ref : list string) : bool :=
  negb (endswith "Units" k) || match ref with [_] => true | _ => false end.
Lemma referenceb_ok k ref : referenceb k ref = true -> reference_ok k ref.
Proof. intros H U. unfold referenceb in H. rewrite U in H. destruct ref as [|u [|]]; [discriminate H|eauto|discriminate H]. Qed.

Definition stringsb (v : value) : bool :=
  match v with
  | VStr _ _ => true
  | VArr a => match a_shape a with
              | n :: rest => (Nat.leb n 1 || Nat.eqb (prod rest) 1)
                  && negb (match a_data a with [] => true | _ => false end)
                  && forallb (fun x => match x with EStr _ | EByt _ => true | _ => false end) (a_data a)
              | [] => false
              end
  | _ => false
  end.
Lemma stringsb_ok v : stringsb v = true -> exists s ls, strings v s ls.
Proof.
  destruct v as [b s|x|a|l]; cbn [stringsb]; intro H; try discriminate H; [eexists _, _; constructor|].
  destruct (a_shape a) as [|n rest] eqn:SH; [discriminate H|]. apply andb_true_iff in H. destruct H as [H F].
  apply andb_true_iff in H. destruct H as [H N]. apply orb_true_iff in H. rewrite Nat.leb_le, Nat.eqb_eq in H.
  assert (X : exists ls, Forall2 (fun x l => exists s, (x = EStr s \/ x = EByt s) /\ String.length s = l) (a_data a) ls).
  { clear -F. induction (a_data a) as [|x l IH]; [eexists; constructor|]. cbn [forallb] in F. apply andb_true_iff in F.
    destruct F as [F1 F2]. destruct (IH F2) as [ls Q]. destruct x; try discriminate F1; eexists; constructor; eauto. }
  destruct X as [ls X]. exists (n :: rest), ls. econstructor; eauto. intro Q. rewrite Q in N. discriminate N.
Qed.

Definition checkableb (E : env) (m : vmode) (o : sofa) (cv : convention) (a : dict nat) : bool :=
  forallb (fun k => match declared cv o k with
                    | Some e => (String.eqb (e_type e) "double"
                                 || match dget k (pub o) with Some v => stringsb v | None => true end)
                        && match e_dims e with
                           | Some d => forallb (fun alt => is_ok (shape_ref a alt)) (alternatives d)
                           | None => true
                           end
                    | None => true
                    end) (variables cv o)
  && match custom o with
     | None => true
     | Some _ => match dget "GLOBAL_SOFAConventions" (pub o), dget "GLOBAL_SOFAConventionsVersion" (pub o) with
                 | Some (VStr _ c), Some (VStr _ v) => is_ok (snd (sofa_init E c false v VAuto))
                 | _, _ => false
                 end
     end
  && forallb (fun kr => let k := python_name (fst kr) in
       match r_value (snd kr), r_specific (snd kr) with None, None => true | _, _ => attributeb cv o k end
       && match r_value (snd kr) with Some ref => referenceb k ref | None => true end
       && match r_specific (snd kr), dget k (pub o) with
          | Some sp, Some (VStr _ s) =>
              match dget (dep_case s) sp with
              | Some items => forallb (fun kd => match snd kd with
                    | DepDims l => forallb (fun x => dmem (fst x) a) l
                    | DepVal None => true
                    | DepVal (Some ref) => attributeb cv o (python_name (fst kd)) && referenceb (python_name (fst kd)) ref
                    end) items
              | None => true
              end
          | _, _ => true
          end) (rules E)
  && (negb (m_write m) || forallb (fun k => negb (endswith "Units" k) || attributeb cv o k) (dkeys (pub o))).

Lemma checkableb_ok E m o cv o1 s : reset_to cv o o1 -> dicts_ok o -> well_typed cv o -> detect o1 = (s, Ok tt) ->
  checkableb E m o cv (fixed_sizes s) = true -> checkable E m o cv.
Proof.
  intros R DO TY HD H. assert (NL := types_no_lists cv o TY). assert (SZ := sizes_iff cv o o1 R DO NL s HD).
  unfold checkableb in H. rewrite !andb_true_iff in H. destruct H as [[[H1 H2] H3] H4]. rewrite forallb_forall in H1, H3.
  constructor.
  - apply (sized_iff cv o o1 R DO NL). eauto.
  - intros k e v IV D G T. specialize (H1 k IV). rewrite D, G in H1. apply andb_true_iff in H1. destruct H1 as [H1 _].
    rewrite (eqb_neq_s _ _ T) in H1. apply stringsb_ok. exact H1.
  - intros k e d alt IV D ED IA. specialize (H1 k IV). rewrite D, ED in H1. apply andb_true_iff in H1. destruct H1 as [_ H1].
    rewrite forallb_forall in H1. specialize (H1 alt IA). apply (letters_iff cv o o1 R DO NL s HD alt).
    destruct (shape_ref (fixed_sizes s) alt) as [r|]; [eauto|discriminate H1].
  - destruct (custom o); [right|left; reflexivity].
    destruct (dget "GLOBAL_SOFAConventions" (pub o)) as [[b c|x|x|x]|]; try discriminate H2.
    destruct (dget "GLOBAL_SOFAConventionsVersion" (pub o)) as [[b' v|x|x|x]|]; try discriminate H2. eauto 8.
  - intros k r IR. specialize (H3 _ IR). cbn [fst snd] in H3. rewrite !andb_true_iff in H3. destruct H3 as [[A B] C].
    split; [|split].
    + intros O. apply attributeb_ok. destruct (r_value r), (r_specific r); try exact A. destruct O; congruence.
    + intros ref Q. rewrite Q in B. apply referenceb_ok. exact B.
    + intros sp b t items kd Q G GI ID. rewrite Q, G, GI, forallb_forall in C. specialize (C kd ID).
      destruct (snd kd) as [l|[ref|]]; [|apply andb_true_iff in C; destruct C; split; [apply attributeb_ok|apply referenceb_ok]; assumption|exact I].
      intros x ns tt' IL. rewrite forallb_forall in C. specialize (C _ IL). cbn [fst] in C. unfold dmem in C.
      destruct (dget x (fixed_sizes s)) as [n|] eqn:Z; [|discriminate C]. exists n. apply SZ. exact Z.
  - intros W k U. apply attributeb_ok. rewrite W in H4. cbn [m_write negb orb] in H4. rewrite forallb_forall in H4.
    destruct (smem k (dkeys (pub o))) eqn:M.
    + apply smem_In in M. specialize (H4 k M). rewrite U in H4. exact H4.
    + unfold attributeb. rewrite M. reflexivity.
Qed.
