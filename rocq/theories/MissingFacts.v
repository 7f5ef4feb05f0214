(** Version selection, names in conventions, add_missing. *)
From Verif Require Import Base PyStr PyNum NdArray Sofa Verify Upgrade SpecAttr SpecInit
  BaseFacts StrFacts AttrFacts OpFacts InitFacts ProtFacts AddDelFacts.
From Coq Require Import ZArith NArith RelationClasses.
Open Scope string_scope.
Open Scope list_scope.

(** ** decimal order *)
Lemma pow10_pos n : (0 < pow10 n)%N.
Proof. unfold pow10. apply N.neq_0_lt_0. apply N.pow_nonzero. discriminate. Qed.

Lemma dec_ltb_false a b : dec_ltb a b = false <-> (dm b * pow10 (ds a) <= dm a * pow10 (ds b))%N.
Proof. unfold dec_ltb. apply N.ltb_ge. Qed.

Lemma dec_ge_trans a b c : dec_ltb a b = false -> dec_ltb b c = false -> dec_ltb a c = false.
Proof.
  rewrite !dec_ltb_false. intros H1 H2.
  assert (P := pow10_pos (ds b)).
  assert (Pa := pow10_pos (ds a)). assert (Pc := pow10_pos (ds c)).
  apply (N.mul_le_mono_pos_r _ _ (pow10 (ds b))); [exact P|].
  apply (N.mul_le_mono_r _ _ (pow10 (ds c))) in H1.
  apply (N.mul_le_mono_r _ _ (pow10 (ds a))) in H2. lia.
Qed.

Lemma dec_ltb_ge a b : dec_ltb a b = true -> dec_ltb b a = false.
Proof. rewrite dec_ltb_false. unfold dec_ltb. rewrite N.ltb_lt. lia. Qed.

Lemma argmax_max {A} (l : list (dec * A)) : forall b,
  exists d, In (d, argmax_aux l b) (b :: l) /\ forall x, In x (b :: l) -> dec_ltb d (fst x) = false.
Proof.
  induction l as [|y l IH]; intro b; cbn [argmax_aux].
  - exists (fst b). split; [left; destruct b; reflexivity|]. intros x [<-|[]].
    apply dec_ltb_false. lia.
  - destruct (dec_ltb (fst b) (fst y)) eqn:L.
    + destruct (IH y) as [d [H1 H2]]. exists d. split; [right; exact H1|].
      intros x [<-|Hx]; [|exact (H2 x Hx)].
      apply dec_ltb_ge in L. apply (dec_ge_trans _ (fst y)); [apply H2; left; reflexivity|exact L].
    + destruct (IH b) as [d [H1 H2]]. exists d. split.
      * destruct H1 as [H1|H1]; [left; exact H1 | right; right; exact H1].
      * intros x [<-|[<-|Hx]]; [apply H2; left; reflexivity| |apply H2; right; exact Hx].
        apply (dec_ge_trans _ (fst b)); [apply H2; left; reflexivity|exact L].
Qed.

(** ** the file that is loaded *)
Lemma has_file_prefix E c v content :
  has_file E c v content -> startswith (c +++ "_") (file_name c v) = true.
Proof. intros _. unfold file_name. apply prefix_spec. exists (v +++ ".json"). rewrite sapp_assoc. reflexivity. Qed.

Lemma has_file_version E c v content :
  db_ok E -> has_file E c v content -> file_version (file_name c v) = v
  /\ float_str v = Some v /\ v <> "latest".
Proof.
  intros [_ OK] H. destruct (file_ok_prefix _ c (OK _ H) (has_file_prefix _ _ _ _ H))
    as [v' [V1 [V2 [_ [V4 [V5 _]]]]]]. cbn [fst] in *.
  unfold file_name in V1. apply sapp_inv_head in V1. apply (sapp_inv_head "_") in V1.
  assert (EV : v' = v).
  { assert (G : drop_end 5 (v +++ ".json") = drop_end 5 (v' +++ ".json")) by (rewrite V1; reflexivity).
    rewrite !(drop_end_app _ ".json") in G. symmetry. exact G. }
  rewrite EV in V2, V4, V5. split; [exact V2|]. split; [exact V5|exact V4].
Qed.

Lemma split_cons sep s : split sep s <> [].
Proof.
  unfold split. generalize 0 as k. induction s as [|c s IH]; intro k; [discriminate|].
  cbn [split_aux]. destruct k; [|apply IH]. destruct (prefix sep (String c s)); [discriminate|].
  destruct (split_aux sep s 0); discriminate.
Qed.

Lemma name_version_ok E : db_ok E -> is_ok (get_name_version E) = true.
Proof.
  intros [_ OK]. unfold get_name_version. revert OK. induction (db E) as [|f l IH]; intro OK; [reflexivity|].
  cbn [rmap]. destruct (OK f (or_introl eq_refl)) as [c [v [H1 [H2 _]]]].
  unfold name_version_of at 1. rewrite H1.
  change (c +++ "_" +++ v +++ ".json") with (c +++ String "_" (v +++ ".json")).
  rewrite (split_app "_" c _ H2).
  assert (S : exists x t, split (str1 "_") (v +++ ".json") = x :: t).
  { assert (X := split_cons (str1 "_") (v +++ ".json")).
    destruct (split (str1 "_") (v +++ ".json")) as [|x t]; [congruence|eauto]. }
  destruct S as [x [t S]]. change (split "_") with (split (str1 "_")). rewrite S. cbn [rbind].
  destruct (rmap _ l) as [r|e] eqn:ER; [reflexivity|].
  cbn in IH. exfalso. assert (is_ok (@Err (list (string * string)) e) = true); [|discriminate].
  apply IH. intros g Hg. apply OK. right. exact Hg.
Qed.

Lemma load_version E c version :
  db_ok E -> version <> "latest" ->
  (forall content, has_file E c version content -> load_convention E c version = Ok (sofar_keys content))
  /\ ((forall content, ~ has_file E c version content) ->
      exists m, load_convention E c version = Err (Exn EValueError m)).
Proof.
  intros DB N. assert (NV := name_version_ok E DB). destruct DB as [ND OK].
  unfold load_convention. destruct (get_name_version E) as [nv|]; [|discriminate]. cbn [rbind].
  set (P := fun f : string * convention => startswith (c +++ "_") (fst f)).
  rewrite (eqb_neq_s _ _ N). split.
  - intros content H.
    assert (FI : In (file_name c version, content) (filter P (db E))).
    { apply filter_In. split; [exact H | exact (has_file_prefix _ _ _ _ H)]. }
    destruct (filter P (db E)) as [|f0 fs] eqn:EF; [destruct FI|].
    destruct (has_file_version E c version content (conj ND OK) H) as [HV _].
    destruct (find _ (f0 :: fs)) as [g|] eqn:EG.
    + apply find_some in EG. destruct EG as [G1 G2]. apply String.eqb_eq in G2.
      rewrite <- EF in G1. apply filter_In in G1. destruct G1 as [G1 G3].
      destruct (file_ok_prefix g c (OK g G1) G3) as [v' [W1 [W2 _]]].
      assert (g = (file_name c version, content)) as ->; [|reflexivity].
      eapply (NoDup_map_inj fst); [exact ND|exact G1|exact H|]. rewrite W1. cbn [fst].
      replace v' with version by congruence. reflexivity.
    + exfalso. apply (find_none _ _ EG) in FI. cbn [fst] in FI. rewrite HV, eqb_refl_s in FI. discriminate.
  - intro H. destruct (filter P (db E)) as [|f0 fs] eqn:EF; [eauto|].
    destruct (find _ (f0 :: fs)) as [g|] eqn:EG; [|cbn; eauto].
    exfalso. apply find_some in EG. destruct EG as [G1 G2]. apply String.eqb_eq in G2.
    rewrite <- EF in G1. apply filter_In in G1. destruct G1 as [G1 G3].
    destruct (file_ok_prefix g c (OK g G1) G3) as [v' [W1 [W2 _]]].
    apply (H (snd g)). unfold has_file, file_name.
    replace v' with version in W1 by congruence. rewrite <- W1. destruct g; exact G1.
Qed.

Lemma load_latest E c :
  db_ok E ->
  ((exists v content, has_file E c v content) ->
   exists v content d, has_file E c v content /\ load_convention E c "latest" = Ok (sofar_keys content)
     /\ parse_float v = Some d
     /\ forall v' content', has_file E c v' content' ->
          exists d', parse_float v' = Some d' /\ dec_ltb d d' = false)
  /\ ((forall v content, ~ has_file E c v content) ->
      exists m, load_convention E c "latest" = Err (Exn EValueError m)).
Proof.
  intros DB. assert (NV := name_version_ok E DB). destruct DB as [ND OK].
  unfold load_convention. destruct (get_name_version E) as [nv|]; [|discriminate]. cbn [rbind].
  set (P := fun f : string * convention => startswith (c +++ "_") (fst f)).
  assert (HP : forall g, In g (filter P (db E)) -> exists v d, g = (file_name c v, snd g)
     /\ has_file E c v (snd g) /\ file_version (fst g) = v /\ parse_float v = Some d).
  { intros g Hg. apply filter_In in Hg. destruct Hg as [G1 G3].
    destruct (file_ok_prefix g c (OK g G1) G3) as [v' [W1 [W2 [_ [_ [W3 _]]]]]].
    assert (D : exists d, parse_float v' = Some d).
    { unfold float_str in W3. destruct (parse_float v') as [d|]; [eauto|discriminate]. }
    destruct D as [d D]. exists v', d. split; [unfold file_name; rewrite <- W1; destruct g; reflexivity|].
    split; [|auto]. unfold has_file, file_name. rewrite <- W1. destruct g; exact G1. }
  change (String.eqb "latest" "latest") with true. cbv iota.
  split.
  - intros [v0 [c0 H0]].
    assert (FI : In (file_name c v0, c0) (filter P (db E))).
    { apply filter_In. split; [exact H0 | exact (has_file_prefix _ _ _ _ H0)]. }
    assert (ALL : forall v content, has_file E c v content -> In (file_name c v, content) (filter P (db E))).
    { intros v content H. apply filter_In. split; [exact H | exact (has_file_prefix _ _ _ _ H)]. }
    destruct (filter P (db E)) as [|f0 fs] eqn:EF; [destruct FI|]. clear FI H0 v0 c0.
    set (g := fun f : string * convention => match parse_float (file_version (fst f)) with
               | Some d => Ok (d, snd f) | None => Err (Exn EValueError (fst f)) end).
    assert (R : exists vs, rmap g (f0 :: fs) = Ok vs
       /\ Forall2 (fun f x => g f = Ok x) (f0 :: fs) vs).
    { clear ALL EF. revert HP. generalize (f0 :: fs) as l. induction l as [|a l IH]; intro HP.
      - exists []. split; [reflexivity|constructor].
      - destruct IH as [vs [R1 R2]]; [intros; apply HP; right; assumption|].
        destruct (HP a (or_introl eq_refl)) as [v [d [A1 [A2 [A3 A4]]]]].
        cbn [rmap]. assert (GA : g a = Ok (d, snd a)) by (unfold g; rewrite A3, A4; reflexivity).
        exists ((d, snd a) :: vs). split; [rewrite GA; cbn [rbind]; rewrite R1; reflexivity|].
        constructor; assumption. }
    destruct R as [vs [R1 R2]]. rewrite R1. cbn [rbind].
    destruct vs as [|x t]; [inversion R2|].
    destruct (argmax_max t x) as [d [D1 D2]].
    assert (S1 : forall y, In y (x :: t) -> exists f, In f (f0 :: fs) /\ g f = Ok y).
    { clear -R2. induction R2 as [|a b la lb Hab Hl IH]; intros y Hy; [destruct Hy|].
      destruct Hy as [<-|Hy]; [exists a; split; [left; reflexivity|exact Hab]|].
      destruct (IH y Hy) as [f [F1 F2]]. exists f. split; [right; exact F1|exact F2]. }
    assert (S2 : forall f, In f (f0 :: fs) -> exists y, In y (x :: t) /\ g f = Ok y).
    { clear -R2. induction R2 as [|a b la lb Hab Hl IH]; intros y Hy; [destruct Hy|].
      destruct Hy as [<-|Hy]; [exists b; split; [left; reflexivity|exact Hab]|].
      destruct (IH y Hy) as [f [F1 F2]]. exists f. split; [right; exact F1|exact F2]. }
    destruct (S1 _ D1) as [f [F1 F2]].
    destruct (HP f F1) as [v [d1 [A1 [A2 [A3 A4]]]]].
    unfold g in F2. rewrite A3, A4 in F2. inversion F2. subst d1.
    exists v, (snd f), d. split; [exact A2|]. split; [reflexivity|]. split; [exact A4|].
    intros v' content' H'. destruct (S2 _ (ALL _ _ H')) as [y [Y1 Y2]].
    destruct (has_file_version E c v' content' (conj ND OK) H') as [HV _].
    unfold g in Y2. cbn [fst snd] in Y2. rewrite HV in Y2.
    destruct (parse_float v') as [d'|]; [|discriminate]. inversion Y2; subst y.
    exists d'. split; [reflexivity|]. apply (D2 _ Y1).
  - intro H. destruct (filter P (db E)) as [|f0 fs] eqn:EF; [eauto|].
    exfalso. destruct (HP f0 (or_introl eq_refl)) as [v [d [_ [H2 _]]]]. exact (H _ _ H2).
Qed.

(** ** short version numbers *)
Lemma digits_val_app a : forall b acc,
  digits_val (a +++ b) acc = match digits_val a acc with Some n => digits_val b n | None => None end.
Proof. induction a as [|c a IH]; intros b acc; cbn; [reflexivity|]. destruct (is_digit c); [apply IH|reflexivity]. Qed.

Lemma digit_no_dot c : is_digit c = true -> Ascii.eqb "." c = false.
Proof. intro H. destruct (Ascii.eqb_spec "." c) as [<-|]; [discriminate|reflexivity]. Qed.

Lemma digits_no_dot s : forall acc n, digits_val s acc = Some n -> has_char "." s = false.
Proof.
  induction s as [|c s IH]; intros acc n H; [reflexivity|]. cbn [digits_val] in H. cbn [has_char].
  destruct (is_digit c) eqn:D; [|discriminate]. rewrite (digit_no_dot c D). eapply IH; exact H.
Qed.

Lemma digit_val_bound d : is_digit d = true -> (digit_val d < 10)%N.
Proof.
  unfold is_digit, digit_val. rewrite andb_true_iff, !Nat.leb_le. lia.
Qed.

Lemma short_version_parts i d n :
  num_val i = Some n -> is_digit d = true ->
  parse_float (i +++ "." +++ str1 d) = Some (Dec (n * 10 + digit_val d) 1)
  /\ parse_version (i +++ "." +++ str1 d) = Some [n; digit_val d].
Proof.
  unfold num_val. destruct (String.eqb_spec i "") as [->|N]; [discriminate|]. intros H D.
  assert (S : split "." (i +++ "." +++ str1 d) = [i; str1 d]).
  { change (split ".") with (split (str1 ".")). change ("." +++ str1 d) with (String "." (str1 d)).
    rewrite split_app by (eapply digits_no_dot; exact H). f_equal. apply split_no_char.
    cbn [has_char str1]. rewrite (digit_no_dot d D). reflexivity. }
  unfold parse_float, parse_version. rewrite S. rewrite (eqb_neq_s _ _ N).
  change (String.eqb (str1 d) "") with false. cbn [orb].
  rewrite digits_val_app, H. cbn [omap]. unfold num_val at 1. rewrite (eqb_neq_s _ _ N), H.
  unfold num_val. change (String.eqb (str1 d) "") with false.
  cbn [digits_val str1 String.length]. rewrite D. split; [reflexivity|]. do 3 f_equal.
Qed.

Lemma short_version_order v1 v2 d1 d2 :
  short_version v1 -> short_version v2 -> parse_float v1 = Some d1 -> parse_float v2 = Some d2 ->
  version_ltb v1 v2 = Ok (dec_ltb d1 d2).
Proof.
  intros [i1 [c1 [n1 [-> [A1 B1]]]]] [i2 [c2 [n2 [-> [A2 B2]]]]].
  destruct (short_version_parts _ _ _ A1 B1) as [P1 Q1].
  destruct (short_version_parts _ _ _ A2 B2) as [P2 Q2].
  rewrite P1, P2. intros H1 H2. inversion H1; inversion H2; subst.
  unfold version_ltb. rewrite Q1, Q2. f_equal.
  assert (X1 := digit_val_bound _ B1). assert (X2 := digit_val_bound _ B2).
  unfold dec_ltb. cbn [dm ds ver_ltb all_zero negb]. change (pow10 1) with 10%N.
  destruct (N.ltb_spec n1 n2); [symmetry; apply N.ltb_lt; lia|].
  destruct (N.ltb_spec n2 n1); [symmetry; apply N.ltb_ge; lia|].
  destruct (N.ltb_spec (digit_val c1) (digit_val c2)); [symmetry; apply N.ltb_lt; lia|].
  destruct (N.ltb_spec (digit_val c2) (digit_val c1)); symmetry; apply N.ltb_ge; lia.
Qed.

(** ** names of the entries *)
Lemma python_name_eq k : replace_char "." "_" (replace_char ":" "_" k) = python_name k.
Proof.
  unfold python_name. induction k as [|c k IH]; [reflexivity|]. cbn [replace_char smap]. rewrite IH. f_equal.
  rewrite (Ascii.eqb_sym c ":"), (Ascii.eqb_sym c ".").
  destruct (Ascii.eqb ":" c); reflexivity.
Qed.

Lemma fold_dset_map {A} (g : string -> string) (l : dict A) : forall acc,
  NoDup (dkeys acc ++ map g (dkeys l)) ->
  fold_left (fun acc kv => dset (g (fst kv)) (snd kv) acc) l acc
  = acc ++ map (fun kv => (g (fst kv), snd kv)) l.
Proof.
  induction l as [|[k v] l IH]; intros acc ND; cbn; [rewrite app_nil_r; reflexivity|].
  cbn in ND. rewrite dset_new.
  - rewrite IH.
    + rewrite <- app_assoc. reflexivity.
    + unfold dkeys in *. rewrite map_app, <- app_assoc. exact ND.
  - apply NoDup_remove_2 in ND. intro C. apply ND. apply in_or_app. left. exact C.
Qed.

Lemma NoDup_comp {A B} (g : A -> B) l : NoDup (map g l) -> NoDup l.
Proof.
  induction l as [|x l IH]; cbn; intro H; [constructor|]. inversion H; subst.
  constructor; [|auto]. intro C. apply H2. apply in_map. exact C.
Qed.

Lemma sofar_keys_all {A} (d : dict A) :
  NoDup (map python_name (dkeys d)) ->
  sofar_keys d = map (fun kv => (python_name (fst kv), snd kv)) d.
Proof.
  intro ND. unfold sofar_keys, rename_keys.
  rewrite (fold_dset_map (replace_char ":" "_") d []).
  - cbn [app]. rewrite (fold_dset_map (replace_char "." "_")); cbn [dkeys map app].
    + rewrite map_map. apply map_ext. intros [k v]. cbn. rewrite python_name_eq. reflexivity.
    + unfold dkeys. rewrite !map_map. cbn. unfold dkeys in ND. rewrite map_map in ND.
      erewrite map_ext; [exact ND|]. intros [k v]. cbn. apply python_name_eq.
  - cbn. apply (NoDup_comp (replace_char "." "_")). rewrite map_map.
    erewrite map_ext; [exact ND|]. intro k. apply python_name_eq.
Qed.

Lemma rename_keys_In {A} c (d : dict A) k :
  In k (dkeys (rename_keys c d)) -> exists j, In j (dkeys d) /\ k = replace_char c "_" j.
Proof.
  unfold rename_keys. intro H.
  assert (G : forall l acc, In k (dkeys (fold_left (fun acc kv => dset (replace_char c "_" (fst kv)) (snd kv) acc) l acc)) ->
     In k (dkeys acc) \/ exists j, In j (dkeys (l : dict A)) /\ k = replace_char c "_" j).
  { clear H. induction l as [|[j v] l IH]; intros acc H; [left; exact H|]. cbn in H.
    destruct (IH _ H) as [H1|[j' [H1 H2]]]; [|right; exists j'; split; [right; exact H1|exact H2]].
    apply In_dkeys_dset in H1. destruct H1 as [->|H1]; [|left; exact H1].
    right. exists j. split; [left; reflexivity|reflexivity]. }
  destruct (G d [] H) as [[]|G']; exact G'.
Qed.

Lemma sofar_keys_clean {A} (d : dict A) k :
  In k (dkeys (sofar_keys d)) -> has_char ":" k = false /\ has_char "." k = false.
Proof.
  intro H. unfold sofar_keys in H. apply rename_keys_In in H. destruct H as [j [H ->]].
  apply rename_keys_In in H. destruct H as [i [H ->]]. split.
  - apply replace_char_keeps_no; [|discriminate]. apply replace_char_has. discriminate.
  - apply replace_char_has. discriminate.
Qed.

(** ** add_missing *)
Lemma normalize_added e w : normalize (e_default e) = Ok w -> added_default e w.
Proof.
  unfold added_default. destruct (e_default e) as [b s|x|a|l] eqn:D.
  - intro H; inversion H; reflexivity.
  - destruct x; cbn; intro H; inversion H; reflexivity.
  - intro H; inversion H; reflexivity.
  - intro H. cbn [normalize] in H. apply rbind_Ok in H. destruct H as [b [H1 H2]].
    exists b. split; [exact H1|]. unfold a_size in H2. cbn [reshape a_shape a_data] in H2.
    rewrite prod_atleast_2d in H2. destruct (Nat.eqb_spec (prod (a_shape b)) 1) as [E|N].
    + split; [|tauto]. intros _. destruct (a_data b) as [|x t]; [discriminate|].
      inversion H2; subst. exists x, t. split; [reflexivity|]. destruct x; reflexivity.
    + split; [tauto|]. intros _. inversion H2; subst. eexists. split; [reflexivity|].
      split; [reflexivity|]. split; [reflexivity|]. apply squeeze_atleast_2d.
Qed.

(** assigning the defaults *)
Lemma set_loop l : forall o o' ev u,
  mfor l (fun kv : string * entry => set_attr (fst kv) (e_default (snd kv))) o = (o', ev, Ok u) ->
  NoDup (map fst l) -> ~ In "protected" (map fst l) ->
  o' = with_pub o (pub o') /\ ev = []
  /\ (forall k e, In (k, e) l -> exists w, normalize (e_default e) = Ok w /\ dget k (pub o') = Some w)
  /\ (forall k, ~ In k (map fst l) -> dget k (pub o') = dget k (pub o)).
Proof.
  induction l as [|[k e] l IH]; intros o o' ev u H ND NP.
  - cbn in H. inversion H; subst. split; [destruct o'; reflexivity|]. split; [reflexivity|].
    split; [intros k e []|reflexivity].
  - cbn [mfor] in H. apply bind_Ok in H. destruct H as [o1 [e1 [a [e2 [H1 [H2 H3]]]]]].
    cbn [fst snd] in H1. cbn in NP. inversion ND as [|? ? N1 N2]; subst.
    apply set_attr_Ok in H1; [|intros ->; apply NP; left; reflexivity].
    destruct H1 as [w [K1 [K2 K3]]]. subst.
    destruct (IH _ _ _ _ H2 N2) as [I1 [I2 [I3 I4]]]; [tauto|].
    split; [rewrite I1 at 1; reflexivity|]. split; [subst; reflexivity|]. split.
    + intros k' e' [Hin|Hin]; [|eauto]. inversion Hin; subst. exists w. split; [exact K1|].
      rewrite I4 by exact N1. cbn. apply dget_dset_same.
    + intros k' Hn. cbn in Hn. rewrite I4 by tauto. cbn. apply dget_dset_other.
      intro C. apply Hn. left; congruence.
Qed.

(** convention and custom data unchanged *)
Definition same0 (o o' : sofa) : Prop := conv o' = conv o /\ custom o' = custom o.
Global Instance same0_refl : Reflexive same0.
Proof. intro o; split; reflexivity. Qed.
Global Instance same0_trans : Transitive same0.
Proof. intros a b c [H1 H2] [H3 H4]; split; congruence. Qed.

Definition wanted (mandatory optional : bool) (e : entry) : bool :=
  (is_mandatory (e_flags e) && mandatory) || (negb (is_mandatory (e_flags e)) && optional).

Lemma reset_eq E o o1 : reset_convention E o = (o1, [], Ok tt) ->
  forall o2, pub o2 = pub o -> custom o2 = custom o1 -> reset_convention E o2 = (with_conv o2 (conv o1), [], Ok tt).
Proof.
  intros R o2 P C. unfold reset_convention, getattr in *. rewrite P.
  destruct (match dget "GLOBAL_SOFAConventions" (pub o) with Some v => Ok v | None => _ end) as [c|]; [|discriminate].
  destruct (match dget "GLOBAL_SOFAConventionsVersion" (pub o) with Some v => Ok v | None => _ end) as [v|]; [|discriminate].
  destruct (as_str c) as [s|]; [|discriminate].
  destruct (let? _ := _ in _) as [cv|]; [|discriminate].
  rewrite C. destruct (custom o) as [cu|] eqn:CU.
  - inversion R; subst o1. cbn [custom conv with_custom with_conv].
    assert (F : filter (fun kv => negb (dmem (fst kv) cv)) (filter (fun kv => negb (dmem (fst kv) cv)) cu)
                = filter (fun kv => negb (dmem (fst kv) cv)) cu).
    { clear. induction cu as [|x cu IH]; [reflexivity|]. cbn. destruct (negb _) eqn:N; [|exact IH].
      cbn. rewrite N, IH. reflexivity. }
    rewrite F. cbn [custom with_custom with_conv] in C. rewrite <- C. destruct o2; reflexivity.
  - inversion R; subst o1. cbn [custom conv with_conv]. cbn in C. rewrite CU. reflexivity.
Qed.

Lemma reset_eq_glob E o o1 : reset_convention E o = (o1, [], Ok tt) ->
  forall o2, dget "GLOBAL_SOFAConventions" (pub o2) = dget "GLOBAL_SOFAConventions" (pub o) ->
  dget "GLOBAL_SOFAConventionsVersion" (pub o2) = dget "GLOBAL_SOFAConventionsVersion" (pub o) ->
  custom o2 = custom o1 -> reset_convention E o2 = (with_conv o2 (conv o1), [], Ok tt).
Proof.
  intros R o2 P1 P2 C.
  assert (X := reset_eq E o o1 R (with_pub o2 (pub o)) eq_refl C).
  unfold reset_convention, getattr in *. cbn [pub with_pub custom] in X. rewrite P1, P2.
  destruct (match dget "GLOBAL_SOFAConventions" (pub o) with Some v => Ok v | None => _ end) as [c|]; [|discriminate].
  destruct (match dget "GLOBAL_SOFAConventionsVersion" (pub o) with Some v => Ok v | None => _ end) as [v|]; [|discriminate].
  destruct (as_str c) as [s|]; [|discriminate].
  destruct (let? _ := _ in _) as [cv|]; [|discriminate].
  assert (X' := f_equal (fun r => with_pub (fst (fst r)) (pub o2)) X). cbn [fst] in X'.
  destruct (custom o2) as [cu|]; f_equal; f_equal;
    (etransitivity; [|etransitivity; [exact X'|]]); destruct o2; reflexivity.
Qed.

Lemma add_missing_Ok E m p b o o' ev u :
  add_missing E m p b o = (o', ev, Ok u) ->
  exists o1, reset_convention E o = (o1, [], Ok tt) /\ conv o' = conv o1 /\ custom o' = custom o1
   /\ (~ In "protected" (dkeys (conv o1)) ->
      prot o' = true /\ ro o' = ro o
      /\ (forall k w, dget k (pub o) = Some w -> dget k (pub o') = Some w)
      /\ (forall k e, dget k (conv o1) = Some e -> wanted m p e = true -> dget k (pub o) = None ->
            exists w, dget k (pub o') = Some w /\ normalize (e_default e) = Ok w)
      /\ (forall k, dget k (pub o) = None ->
            (forall e, dget k (conv o1) = Some e -> wanted m p e = false) -> dget k (pub o') = None)
      /\ add_missing E m p b o' = (o', if b then [EvPrint "All mandatory data contained."] else [], Ok tt)).
Proof.
  intro H. unfold add_missing in H.
  apply bind_Ok in H. destruct H as [o1 [e1 [[] [e2 [H1 [H2 _]]]]]].
  assert (e1 = []) as ->.
  { destruct (reset_convention_cases E o) as [[x R]|[c [bb [v [cv [_ [_ [_ [_ R]]]]]]]]];
      rewrite R in H1; inversion H1; reflexivity. }
  exists o1. split; [exact H1|].
  assert (ND := reset_ok_NoDup _ _ _ _ _ H1).
  assert (DS := reset_data_same E o). rewrite H1 in DS. destruct DS as [D1 D2 D3]. cbn in D1, D2, D3.
  apply bind_Ok in H2. destruct H2 as [o2 [e3 [o3 [e4 [H3 [H4 _]]]]]].
  inversion H3. subst o2 e3 o3. clear H3. cbv zeta in H4.
  apply bind_Ok in H4. destruct H4 as [o2 [e5 [[] [e6 [H5 [H6 _]]]]]].
  inversion H5. subst o2 e5. clear H5.
  apply bind_Ok in H6. destruct H6 as [o4 [e7 [[] [e8 [H7 [H8 _]]]]]].
  apply bind_Ok in H8. destruct H8 as [o5 [e9 [[] [e10 [H9 [H10 _]]]]]].
  inversion H9. subst o5 e9. clear H9.
  assert (O' : o' = with_prot o4 true).
  { revert H10. unfold when, ret, emit. destruct b; [destruct (has_char _ _)|]; intro X; inversion X; reflexivity. }
  clear H10. subst o'.
  set (l := filter _ (conv o1)) in H7.
  assert (NDl : NoDup (map fst l)) by (apply (NoDup_filter_keys _ _ ND)).
  destruct (in_dec string_dec "protected" (dkeys (conv o1))) as [IP|NP].
  { assert (Q : conv o4 = conv o1 /\ custom o4 = custom o1).
    { assert (A : always same0 (mfor l (fun kv : string * entry => set_attr (fst kv) (e_default (snd kv))))).
      { apply always_mfor; [typeclasses eauto|typeclasses eauto|]. intros [k e] _ x. cbn [fst snd].
        destruct (set_attr_cases k (e_default e) x) as [[y S]|[[bb [_ [_ S]]]|[w [_ [_ [S _]]]]]];
          rewrite S; split; reflexivity. }
      specialize (A (with_prot o1 false)). rewrite H7 in A. exact A. }
    destruct Q. cbn. tauto. }
  assert (NPl : ~ In "protected" (map fst l)).
  { intro C. apply NP. rewrite in_map_iff in C. destruct C as [x [X1 X2]].
    apply filter_In in X2. destruct X2 as [X2 _]. unfold dkeys. rewrite in_map_iff. eauto. }
  destruct (set_loop _ _ _ _ _ H7 NDl NPl) as [I1 [_ [I2 I3]]].
  cbn [with_prot pub conv custom ro prot] in *.
  assert (C4 : conv o4 = conv o1) by (rewrite I1; reflexivity).
  assert (U4 : custom o4 = custom o1) by (rewrite I1; reflexivity).
  assert (R4 : ro o4 = ro o1) by (rewrite I1; reflexivity).
  split; [exact C4|]. split; [exact U4|]. intros _. split; [reflexivity|]. split; [congruence|].
  assert (NL : forall k, In k (map fst l) <-> exists e, dget k (conv o1) = Some e /\ wanted m p e = true
                                              /\ dget k (pub o) = None).
  { intro k. rewrite in_map_iff. split.
    - intros [[j e] [<- Hin]]. apply filter_In in Hin. destruct Hin as [Hin HB]. cbn in HB |- *.
      apply andb_true_iff in HB. destruct HB as [HB1 HB2]. exists e.
      split; [apply In_dget; assumption|]. split; [exact HB2|].
      apply negb_true_iff, smem_false in HB1. apply dget_None. rewrite <- D1. exact HB1.
    - intros [e [A [B C]]]. exists (k, e). split; [reflexivity|]. apply filter_In.
      split; [apply dget_In; exact A|]. cbn. fold (wanted m p e). rewrite B, andb_true_r.
      apply negb_true_iff, smem_false. rewrite D1. apply dget_None. exact C. }
  assert (K : forall k w, dget k (pub o) = Some w -> dget k (pub o4) = Some w).
  { intros k w Hw. rewrite I3; [rewrite D1; exact Hw|]. rewrite NL. intros [e [_ [_ C]]]. congruence. }
  assert (W : forall k e, dget k (conv o1) = Some e -> wanted m p e = true -> dget k (pub o) = None ->
            exists w, dget k (pub o4) = Some w /\ normalize (e_default e) = Ok w).
  { intros k e A B C. assert (X : In k (map fst l)) by (apply NL; eauto).
    rewrite in_map_iff in X. destruct X as [[j e'] [Y1 Y2]]. cbn in Y1. subst j.
    assert (e' = e).
    { apply filter_In in Y2. destruct Y2 as [Y2 _]. apply (In_dget _ _ _ ND) in Y2. congruence. }
    subst e'. destruct (I2 k e Y2) as [w [W1 W2]]. eauto. }
  split; [exact K|]. split; [exact W|]. split.
  { intros k A B. rewrite I3; [rewrite D1; exact A|]. rewrite NL. intros [e [X [Y _]]].
    rewrite (B e X) in Y. discriminate. }
  (* second call *)
  set (o' := with_prot o4 true).
  assert (G1 : forall k, In k ["GLOBAL_SOFAConventions"; "GLOBAL_SOFAConventionsVersion"] ->
      dget k (pub o') = dget k (pub o)).
  { intros k Hk. destruct (reset_convention_cases E o) as [[x R]|[c [bb [v [cv [X1 [X2 _]]]]]]];
      [rewrite R in H1; discriminate|].
    destruct Hk as [<-|[<-|[]]]; [rewrite X1|rewrite X2]; apply K; assumption. }
  assert (R2 := reset_eq_glob E o o1 H1 o' (G1 _ (or_introl eq_refl))
                  (G1 _ (or_intror (or_introl eq_refl))) U4).
  replace (with_conv o' (conv o1)) with o' in R2 by (unfold o'; rewrite <- C4; destruct o4; reflexivity).
  unfold add_missing, bind at 1. rewrite R2. cbn [app]. unfold bind at 1. cbn [get app]. cbv zeta.
  assert (L : filter (fun kv : string * entry =>
       negb (smem (fst kv) (dkeys (pub o')))
       && (is_mandatory (e_flags (snd kv)) && m || negb (is_mandatory (e_flags (snd kv))) && p))
       (conv o') = []).
  { change (conv o') with (conv o4). rewrite C4.
    assert (Z : forall kv, In kv (conv o1) -> negb (smem (fst kv) (dkeys (pub o'))) && wanted m p (snd kv) = false).
    { intros [k e] Hin. cbn. destruct (wanted m p e) eqn:WE; [|apply andb_false_r].
      rewrite andb_true_r, negb_false_iff. apply smem_In. apply dget_Some_In.
      destruct (dget k (pub o)) as [w|] eqn:DK; [exists w; apply K; exact DK|].
      destruct (W k e (In_dget _ _ _ ND Hin) WE DK) as [w [W1 _]]. exists w. exact W1. }
    revert Z. generalize (conv o1) as l0. induction l0 as [|kv l0 IH]; intro Z; [reflexivity|].
    cbn [filter]. unfold wanted in Z. rewrite (Z kv (or_introl eq_refl)). apply IH. intros; apply Z; right; assumption. }
  rewrite L. unfold bind, set_protected, modify, mfor, ret. cbn [app].
  replace (with_prot (with_prot o' false) true) with o' by (unfold o'; destruct o4; reflexivity).
  destruct b; reflexivity.
Qed.

(** ** the convention of an object can be loaded again *)
Lemma name_version_spec E : db_ok E ->
  exists nv, get_name_version E = Ok nv
    /\ Forall2 (fun (f : string * convention) cv => fst f = file_name (fst cv) (snd cv)
                 /\ float_str (snd cv) = Some (snd cv)) (db E) nv.
Proof.
  intros [_ OK]. unfold get_name_version. revert OK. induction (db E) as [|f l IH]; intro OK.
  { exists []. split; [reflexivity|constructor]. }
  destruct IH as [nv [I1 I2]]; [intros; apply OK; right; assumption|].
  destruct (OK f (or_introl eq_refl)) as [c [v [H1 [H2 [H3 [H4 _]]]]]].
  exists ((c, v) :: nv). cbn [rmap]. unfold name_version_of at 1. rewrite H1.
  change (c +++ "_" +++ v +++ ".json") with (c +++ String "_" (v +++ ".json")).
  change (split "_") with (split (str1 "_")). rewrite (split_app "_" c _ H2).
  rewrite split_no_char by (rewrite has_char_app, H3; reflexivity).
  cbv iota. change 5 with (String.length ".json"). rewrite (drop_end_app v ".json"). cbn [rbind]. rewrite I1. cbn [rbind]. split; [reflexivity|].
  constructor; [|exact I2]. cbn [fst snd]. split; [exact H1|exact H4].
Qed.

Lemma verify_cv_ok E c v content :
  db_ok E -> has_file E c v content -> verify_convention_and_version E v c = Ok tt.
Proof.
  intros DB HF. destruct (name_version_spec E DB) as [nv [N1 N2]].
  destruct (has_file_version E c v content DB HF) as [_ [HV _]].
  assert (DB' := DB). destruct DB' as [_ OK]. specialize (OK _ HF).
  destruct (file_ok_prefix _ c OK (has_file_prefix _ _ _ _ HF)) as [_ [_ [_ [HC _]]]].
  assert (IN : In (c, v) nv).
  { unfold has_file in HF. assert (OK2 : forall f, In f (db E) -> file_ok f) by apply DB.
    clear OK N1 DB. induction N2 as [|f [c' v'] l nv [A1 A2] N2 IH]; [destruct HF|].
    destruct HF as [->|HF]; [left|right; apply IH; [exact HF|intros; apply OK2; right; assumption]].
    cbn [fst snd] in A1. destruct (OK2 _ (or_introl eq_refl)) as [c2 [v2 [B1 [B2 [B3 _]]]]].
    cbn [fst] in B1. unfold file_name in *.
    assert (X1 : c2 +++ String "_" (v2 +++ ".json") = c +++ String "_" (v +++ ".json")) by (symmetry; exact B1).
    assert (HB : has_char "_" (v2 +++ ".json") = false) by (rewrite has_char_app, B3; reflexivity).
    symmetry in X1. apply split_unique in X1; [|exact B2|exact HB]. destruct X1 as [-> X1].
    rewrite X1 in A1.
    assert (X2 : c2 +++ String "_" (v2 +++ ".json") = c' +++ String "_" (v' +++ ".json")) by exact A1.
    symmetry in X2. apply split_unique in X2; [|exact B2|exact HB]. destruct X2 as [-> X2].
    rewrite <- X2 in X1.
    assert (G : drop_end 5 (v +++ ".json") = drop_end 5 (v' +++ ".json")) by (rewrite X1; reflexivity).
    rewrite !(drop_end_app _ ".json") in G. congruence. }
  unfold verify_convention_and_version. rewrite N1. cbn [rbind].
  replace (smem c (map fst nv)) with true
    by (symmetry; apply smem_In; rewrite in_map_iff; exists (c, v); split; [reflexivity|exact IN]).
  cbn [negb].
  assert (FS : forall cv, In cv nv -> float_str (snd cv) = Some (snd cv)).
  { clear -N2. intros cv H. induction N2 as [|f x l nv [A1 A2] N2 IH]; [destruct H|].
    destruct H as [<-|H]; [exact A2|exact (IH H)]. }
  match goal with |- context[rfold ?g nv false] => set (F := g) end.
  assert (R : forall l b, (forall cv, In cv l -> float_str (snd cv) = Some (snd cv)) ->
     exists b', rfold F l b = Ok b' /\ (b = true \/ In (c, v) l -> b' = true)).
  { clear -F. induction l as [|[c' v'] l IH]; intros b FS.
    - exists b. split; [reflexivity|]. intros [H|[]]; exact H.
    - cbn [rfold]. unfold F at 1. cbn [fst snd]. destruct (String.eqb_spec c' c) as [->|N].
      + assert (FV := FS _ (or_introl eq_refl)). cbn [snd] in FV. rewrite FV. cbn [rbind].
        destruct (IH (b || String.eqb v' v)) as [b' [I1 I2]]; [intros; apply FS; right; assumption|].
        exists b'. split; [exact I1|]. intros [->|[H|H]]; apply I2; [left; reflexivity| |right; exact H].
        inversion H; subst. left. rewrite eqb_refl_s. apply orb_true_r.
      + cbn [rbind]. destruct (IH b) as [b' [I1 I2]]; [intros; apply FS; right; assumption|].
        exists b'. split; [exact I1|]. intros [H|[H|H]]; apply I2; [left; exact H| |right; exact H].
        inversion H; subst. congruence. }
  destruct (R nv false FS) as [b' [R1 R2]]. rewrite R1. cbn [rbind]. rewrite R2 by (right; exact IN).
  reflexivity.
Qed.

Lemma load_has_file E c v cv : db_ok E -> v <> "latest" -> load_convention E c v = Ok cv ->
  exists content, has_file E c v content /\ cv = sofar_keys content.
Proof.
  intros DB N H. destruct (load_convention_file _ _ _ _ H) as [f [F1 [F2 [F3 F4]]]].
  destruct (file_ok_prefix f c (proj2 DB f F1) F2) as [v' [W1 [W2 _]]].
  exists (snd f). split; [|exact F3]. unfold has_file, file_name.
  replace v' with v in W1 by (rewrite <- (F4 N); exact W2). rewrite <- W1. destruct f; exact F1.
Qed.

Lemma reset_armed_ok E o c v cv :
  db_ok E -> armed_with E o c v cv -> v <> "latest" ->
  exists o1, reset_convention E o = (o1, [], Ok tt).
Proof.
  intros DB A N. destruct (ar_name _ _ _ _ _ A) as [b1 A1]. destruct (ar_version _ _ _ _ _ A) as [b2 A2].
  destruct (load_has_file E c v cv DB N (ar_load _ _ _ _ _ A)) as [content [HF _]].
  unfold reset_convention, getattr. rewrite A1, A2. cbn [as_str py_str].
  rewrite (verify_cv_ok E c v content DB HF), (ar_load _ _ _ _ _ A). cbn [rbind].
  destruct (custom o); eauto.
Qed.

Lemma add_missing_succeeds E m p b o c v cv :
  db_ok E -> db_tidy E -> tidy o -> armed_with E o c v cv -> v <> "latest" ->
  m_res (add_missing E m p b o) = Ok tt.
Proof.
  intros DB DT T A N. destruct (reset_armed_ok E o c v cv DB A N) as [o1 R].
  destruct (reset_tidy E o o1 DT T R) as [_ [F _]].
  unfold add_missing, bind at 1. rewrite R. unfold bind at 1. cbn [get]. cbv zeta.
  unfold bind at 1. unfold set_protected at 1, modify at 1.
  match goal with |- context[mfor ?l _] => set (todo := l) end.
  assert (FT : Forall entry_fine todo).
  { rewrite Forall_forall in *. intros x Hx. apply filter_In in Hx. apply F, Hx. }
  destruct (mfor_set_fine todo FT (with_prot o1 false) eq_refl) as [p1 Q].
  unfold bind at 1. rewrite Q. unfold bind, set_protected, modify, when, ret, emit, m_res.
  destruct b; [|reflexivity]. match goal with |- context[has_char ?x ?y] => destruct (has_char x y) end; reflexivity.
Qed.

(** ** defaults of new objects and of add_missing *)
Fixpoint np_array_wf (v : value) : forall a, json_value v = true -> np_array v = Ok a ->
  List.length (a_data a) = prod (a_shape a).
Proof.
  destruct v as [b s|x|a0|l]; intros a J H.
  - inversion H; reflexivity.
  - inversion H; reflexivity.
  - discriminate.
  - rewrite np_array_list in H. apply rbind_Ok in H. destruct H as [r [H1 H2]]. cbn in J.
    assert (W : Forall (fun a => List.length (a_data a) = prod (a_shape a)) r).
    { clear H2. revert r J H1. induction l as [|x l IHl]; intros r J H1.
      - inversion H1; constructor.
      - cbn in J. apply andb_true_iff in J. destruct J as [J1 J2]. cbn [np_arrays] in H1.
        apply rbind_Ok in H1. destruct H1 as [y [Y1 H1]]. apply rbind_Ok in H1. destruct H1 as [z [Z1 H1]].
        inversion H1; subst. constructor; [exact (np_array_wf x y J1 Y1)|exact (IHl z J2 Z1)]. }
    clear H1 J. unfold stack in H2. destruct r as [|a1 t]; [inversion H2; reflexivity|].
    destruct (forallb _ t) eqn:FS; [|discriminate]. destruct (promote_all _ t) as [k|]; [|discriminate].
    inversion H2; subst. clear H2. cbn [a_data a_shape prod].
    assert (G : Forall (fun b => List.length (a_data b) = prod (a_shape a1)) (a1 :: t)).
    { rewrite Forall_forall in *. rewrite forallb_forall in FS. intros b [<-|Hb]; [apply W; left; reflexivity|].
      rewrite (W b (or_intror Hb)). f_equal. symmetry. apply shape_eqb_eq. exact (FS b Hb). }
    assert (X : forall L n, Forall (fun b => List.length (a_data b) = n) L ->
       List.length (flat_map (fun b => map (convert k) (a_data b)) L) = List.length L * n).
    { intros L n F. induction F as [|b L Hb F IH]; [reflexivity|].
      cbn [flat_map List.length Nat.mul]. rewrite app_length, map_length, Hb, IH. reflexivity. }
    exact (X (a1 :: t) _ G).
Qed.

Lemma scalar_value_np x : np_array (scalar_value x) = Ok (scalar_arr x).
Proof. destruct x; reflexivity. Qed.

Lemma defaults_same e w1 w2 :
  json_value (e_default e) = true -> stored e = Ok w1 -> normalize (e_default e) = Ok w2 ->
  same_elements w1 w2
  /\ ((forall l, e_default e <> VList l) -> w1 = w2)
  /\ (forall d b, e_dims e = Some d -> String.length (first_alt d) = 2 ->
      np_array (e_default e) = Ok b -> List.length (a_data b) <> 1 -> w1 = w2).
Proof.
  unfold stored, init_default. destruct (e_default e) as [bb s|x|a|l] eqn:D; intro J.
  - cbn. intros H1 H2. inversion H1; inversion H2; subst. split; [|split; reflexivity].
    eexists _, _. repeat split; reflexivity.
  - intros H1 H2. cbn [rbind] in H1.
    assert (W : w1 = w2) by (rewrite H2 in H1; congruence). rewrite <- W in *.
    split; [|split; reflexivity].
    assert (S : w1 = scalar_value x) by (destruct x; cbn in H1; inversion H1; reflexivity).
    rewrite S. eexists _, _. split; [apply scalar_value_np|]. split; [apply scalar_value_np|]. split; reflexivity.
  - discriminate.
  - destruct (e_dims e) as [d|]; [|discriminate]. intros H1 H2.
    apply rbind_Ok in H1. destruct H1 as [v1 [H1 H3]]. unfold atleast_nd in H1.
    apply rbind_Ok in H1. destruct H1 as [a1 [H1 H4]]. inversion H4; subst. clear H4.
    apply rbind_Ok in H1. destruct H1 as [b [H1 H4]]. inversion H4; subst. clear H4.
    cbn [normalize] in H3. inversion H3; subst. clear H3.
    assert (W := np_array_wf (VList l) b J H1).
    cbn [normalize] in H2. rewrite H1 in H2. cbn [rbind] in H2. unfold a_size in H2. cbn [reshape a_shape a_data] in H2.
    rewrite prod_atleast_2d in H2. destruct (Nat.eqb_spec (prod (a_shape b)) 1) as [E|N].
    + destruct (a_data b) as [|x t] eqn:DB; [discriminate|]. inversion H2; subst. clear H2.
      rewrite E in W. destruct t; [|discriminate]. split.
      * eexists _, _. split; [reflexivity|]. split; [apply scalar_value_np|]. cbn [reshape a_data a_shape scalar_arr].
        split; [exact DB|]. rewrite squeeze_atleast_nd.
        assert (P := prod_squeeze (a_shape b)). rewrite E in P. clear -P.
        destruct (sh_squeeze (a_shape b)) as [|n s] eqn:S; [reflexivity|].
        exfalso. assert (I : In n (sh_squeeze (a_shape b))) by (rewrite S; left; reflexivity).
        apply filter_In in I. destruct I as [_ I]. apply negb_true_iff, Nat.eqb_neq in I.
        cbn in P. symmetry in P. apply Nat.eq_mul_1 in P. tauto.
      * split; [intro C; exfalso; exact (C l eq_refl)|]. intros d' b' _ _ B' L. exfalso. apply L.
        rewrite H1 in B'. inversion B'; subst. rewrite DB. reflexivity.
    + inversion H2; subst. clear H2. split.
      * eexists _, _. split; [reflexivity|]. split; [reflexivity|]. cbn [reshape a_data a_shape].
        split; [reflexivity|]. rewrite squeeze_atleast_nd, squeeze_atleast_2d. reflexivity.
      * split; [intro C; exfalso; exact (C l eq_refl)|]. intros d' b' E' L2 B' L. inversion E'; subst.
        rewrite L2. unfold sh_atleast_nd, pad1. do 2 f_equal.
        replace (2 - List.length (sh_atleast_2d (a_shape b))) with 0; [cbn; apply app_nil_r|].
        destruct (a_shape b) as [|n [|m s]]; cbn; lia.
Qed.

(** content with the stored defaults, needed besides [new_content] *)
Lemma init_stored E c mandatory version vo ev o :
  db_ok E -> sofa_init E c mandatory version vo = (ev, Ok o) ->
  forall k e, dget k (creation_entries E) = None -> dget k (conv o) = Some e ->
  is_mandatory (e_flags e) || negb mandatory = true ->
  exists w, dget k (pub o) = Some w /\ stored e = Ok w.
Proof.
  intros DB HI k e HC HK HM.
  destruct (armed_init E c mandatory version vo ev o DB HI) as [v [A [_ [HL _]]]].
  destruct (load_own_version _ _ _ _ DB HL) as [_ [_ [_ [LP _]]]].
  unfold sofa_init in HI. rewrite HL in HI.
  destruct (init_body E (conv o) mandatory vo empty_sofa) as [[o' ev'] [u|x]] eqn:EB; [|discriminate].
  inversion HI; subst. clear HI. unfold init_body in EB.
  apply bind_Ok in EB. destruct EB as [o1 [e1 [[] [e2 [H1 [H2 _]]]]]].
  inversion H1; subst. clear H1.
  apply bind_Ok in H2. destruct H2 as [o2 [e3 [[] [e4 [H3 [H4 _]]]]]].
  assert (P : pub o = pub o2).
  { apply bind_Ok in H4. destruct H4 as [o3 [e5 [y [e6 [H5 [H6 _]]]]]].
    unfold lift in H5. inversion H5; subst o3 e5. clear H5.
    apply bind_Ok in H6. destruct H6 as [o4 [e7 [ver [e8 [H7 [H8 _]]]]]].
    assert (o4 = o2) as -> by (destruct vo; unfold lift, ret in H7; inversion H7; reflexivity).
    apply bind_Ok in H8. destruct H8 as [o5 [e9 [[] [e10 [H9 [H10 _]]]]]].
    unfold set_protected, modify in H10. inversion H10; subst. clear H10. cbn [with_prot pub].
    destruct (ver && negb mandatory).
    - apply bind_Ok in H9. destruct H9 as [o6 [e11 [r [e12 [H11 [H12 _]]]]]].
      inversion H12; subst. clear H12. unfold verify0 in H11.
      match type of H11 with verify_gen ?n E HRaise VRead o2 = _ =>
        destruct (verify_raise_pub n E VRead o2) as [V1 V2] end.
      rewrite H11 in V1. exact V1.
    - apply bind_Ok in H9. destruct H9 as [o6 [e11 [s [e12 [H11 [H12 _]]]]]].
      unfold lift in H11. inversion H11; subst.
      destruct s; unfold when, ret, emit in H12; cbn in H12; inversion H12; reflexivity. }
  rewrite P. clear H4 P. unfold convention_to_sofa in H3.
  apply bind_Ok in H3. destruct H3 as [p1 [f1 [a [f2 [H1 [H2 _]]]]]].
  inversion H1; subst. clear H1. cbv zeta in H2.
  apply bind_Ok in H2. destruct H2 as [p2 [f3 [[] [f4 [H3 [H4 _]]]]]].
  cbn [with_ro with_conv conv empty_sofa] in H3.
  set (l := filter (fun kv => is_mandatory (e_flags (snd kv)) || negb mandatory) (conv o)) in *.
  assert (ND : NoDup (dkeys (conv o))) by (eapply load_convention_NoDup; exact HL).
  assert (NDl : NoDup (map fst l)) by (apply (NoDup_filter_keys _ _ ND)).
  assert (NPl : ~ In "protected" (map fst l)).
  { intro C. apply LP. rewrite in_map_iff in C. destruct C as [x [X1 X2]].
    apply filter_In in X2. destruct X2 as [X2 _]. unfold dkeys. rewrite in_map_iff. eauto. }
  destruct (init_loop _ _ _ _ _ H3 NDl NPl) as [_ [_ [I2 _]]].
  destruct (I2 k e) as [w [W1 W2]].
  { apply filter_In. split; [apply dget_In; exact HK | exact HM]. }
  exists w. split; [|exact W1]. rewrite <- W2.
  assert (FR : forall k' s x y e0 r, k' <> k -> set_attr k' s x = (y, e0, Ok r) -> dget k (pub y) = dget k (pub x)).
  { intros k' s x y e0 r N S. assert (F := set_attr_frame k' s x k). rewrite S in F. apply F. congruence. }
  assert (NC : forall k' s, dget k' (creation_entries E) = Some s -> k' <> k) by (intros k' s S ->; congruence).
  apply bind_Ok in H4. destruct H4 as [q0 [? [[] [? [Q0 [H4 _]]]]]].
  apply bind_Ok in H4. destruct H4 as [q1 [? [[] [? [Q1 [H4 _]]]]]].
  apply bind_Ok in H4. destruct H4 as [q2 [? [[] [? [Q2 [H4 _]]]]]].
  apply bind_Ok in H4. destruct H4 as [q3 [? [[] [? [Q3 [H4 _]]]]]].
  apply bind_Ok in H4. destruct H4 as [q4 [? [[] [? [Q4 [H4 _]]]]]].
  apply bind_Ok in H4. destruct H4 as [q5 [? [[] [? [Q5 [H4 _]]]]]].
  apply bind_Ok in H4. destruct H4 as [q6 [? [[] [? [Q6 [H4 _]]]]]].
  inversion H4; subst. cbn [with_prot pub].
  transitivity (dget k (pub q5)); [refine (FR _ _ _ _ _ _ _ Q6); eapply NC; cbv; reflexivity|].
  transitivity (dget k (pub q4)); [refine (FR _ _ _ _ _ _ _ Q5); eapply NC; cbv; reflexivity|].
  transitivity (dget k (pub q3)); [refine (FR _ _ _ _ _ _ _ Q4); eapply NC; cbv; reflexivity|].
  transitivity (dget k (pub q2)); [refine (FR _ _ _ _ _ _ _ Q3); eapply NC; cbv; reflexivity|].
  transitivity (dget k (pub q1)); [refine (FR _ _ _ _ _ _ _ Q2); eapply NC; cbv; reflexivity|].
  transitivity (dget k (pub q0)); [refine (FR _ _ _ _ _ _ _ Q1); eapply NC; cbv; reflexivity|].
  inversion Q0; subst. reflexivity.
Qed.

(** ** the read-only entries of a new object *)
Lemma ro_exact cv k :
  (exists e, dget "GLOBAL_SOFAConventions" cv = Some e /\ is_read_only (e_flags e) = true) ->
  (exists e, dget "GLOBAL_SOFAConventionsVersion" cv = Some e /\ is_read_only (e_flags e) = true) ->
  NoDup (dkeys cv) ->
  (in_ro k (ro_of_convention cv) = true <->
   exists e, dget k cv = Some e /\ is_read_only (e_flags e) = true).
Proof.
  intros [e1 [A1 A2]] [e2 [B1 B2]] ND. split; [|intros [e [H1 H2]]; eapply ro_of_convention_spec; eassumption].
  set (P := fun kv : string * entry => is_read_only (e_flags (snd kv))).
  assert (I1 : In ("GLOBAL_SOFAConventions", e1) (filter P cv)) by (apply filter_In; split; [apply dget_In|]; assumption).
  assert (I2 : In ("GLOBAL_SOFAConventionsVersion", e2) (filter P cv)) by (apply filter_In; split; [apply dget_In|]; assumption).
  unfold ro_of_convention. fold P.
  assert (G : forall l, In k (map fst l) -> (forall x, In x l -> In x (filter P cv)) ->
     exists e, dget k cv = Some e /\ is_read_only (e_flags e) = true).
  { intros l H1 H2. rewrite in_map_iff in H1. destruct H1 as [[j e] [<- H1]]. exists e.
    specialize (H2 _ H1). apply filter_In in H2. destruct H2 as [H2 H3].
    split; [apply In_dget; assumption|exact H3]. }
  destruct (filter P cv) as [|[k1 x1] [|x l]] eqn:F.
  - destruct I1.
  - exfalso. destruct I1 as [I1|[]]. destruct I2 as [I2|[]]. rewrite I1 in I2. inversion I2.
  - cbn [in_ro]. intro H. apply smem_In in H. eapply G; [exact H|]. intros y Hy; exact Hy.
Qed.
