(** Lemmas about streams. *)
From Verif Require Import Base PyStr PyNum NdArray Sofa Verify Utils Io Stream
  SpecInit SpecVerify SpecIo SpecStream BaseFacts StrFacts WriteFacts RoundFacts.
From Coq Require Import Lia.
Open Scope string_scope.
Open Scope list_scope.
Open Scope nat_scope.

(** ** Replacing a text that ends with an underscore *)
Lemma prefix_before (c : ascii) w : forall x t, has_char c w = false -> has_char c x = false ->
  String.prefix (w +++ str1 c) (x +++ String c t) = true -> x = w.
Proof.
  induction w as [|d w IH]; intros x t HW HX P; apply prefix_spec in P; destruct P as [r P].
  - destruct x as [|y x]; [reflexivity|]. injection P as -> _. cbn in HX. rewrite Ascii.eqb_refl in HX. discriminate.
  - cbn [has_char] in HW. apply orb_false_iff in HW. destruct HW as [W1 W2].
    destruct x as [|y x].
    + injection P as -> _. rewrite Ascii.eqb_refl in W1. discriminate.
    + cbn [has_char] in HX. apply orb_false_iff in HX. destruct HX as [_ X2].
      injection P as -> P. f_equal. apply (IH x t W2 X2). apply prefix_spec. exists r. exact P.
Qed.

Lemma replace_skip w c new t : has_char c w = false -> forall x, has_char c x = false ->
  (forall r, x <> r +++ w) ->
  replace (w +++ str1 c) new (x +++ String c t) = x +++ String c (replace (w +++ str1 c) new t).
Proof.
  intros HW. unfold replace. induction x as [|y x IH]; intros HX NE.
  - cbn [append replace_aux]. destruct (prefix (w +++ str1 c) (String c t)) eqn:P; [|reflexivity].
    exfalso. apply (prefix_before c w "" t HW eq_refl) in P. apply (NE ""). exact P.
  - cbn [append replace_aux].
    destruct (prefix (w +++ str1 c) (String y (x +++ String c t))) eqn:P.
    + exfalso. apply (prefix_before c w (String y x) t HW HX) in P. apply (NE ""). exact P.
    + f_equal. apply IH.
      * cbn [has_char] in HX. apply orb_false_iff in HX. apply HX.
      * intros r ->. apply (NE (String y r)). reflexivity.
Qed.

Lemma replace_absent c w new x : has_char c x = false -> replace (w +++ str1 c) new x = x.
Proof.
  unfold replace. induction x as [|y x IH]; intro H; [reflexivity|]. cbn [replace_aux].
  destruct (prefix (w +++ str1 c) (String y x)) eqn:P.
  - exfalso. apply prefix_spec in P. destruct P as [r P]. rewrite P, !has_char_app in H. cbn [str1 has_char] in H.
    rewrite Ascii.eqb_refl, orb_true_r in H. discriminate H.
  - f_equal. apply IH. cbn [has_char] in H. apply orb_false_iff in H. apply H.
Qed.

Lemma replace_aux_drop old new k : forall s, replace_aux old new s k = replace_aux old new (sdrop k s) 0.
Proof. induction k as [|k IH]; intros [|c s]; try reflexivity. cbn [replace_aux sdrop]. apply IH. Qed.

Lemma replace_found old new t : old <> "" -> replace old new (old +++ t) = new +++ replace old new t.
Proof.
  intro NE. destruct old as [|d old]; [destruct (NE eq_refl)|]. unfold replace. cbn [append].
  assert (P : prefix (String d old) (String d (old +++ t)) = true) by (apply prefix_spec; exists t; reflexivity).
  cbn [replace_aux]. rewrite P. f_equal. rewrite replace_aux_drop. f_equal.
  cbn [String.length]. replace (S (String.length old) - 1) with (String.length old) by lia. apply sdrop_app.
Qed.

(** ** Names *)
Lemma g_skip t x : has_char "_" x = false -> (forall r, x <> r +++ "GLOBAL") ->
  replace "GLOBAL_" "" (x +++ String "_" t) = x +++ String "_" (replace "GLOBAL_" "" t).
Proof. exact (replace_skip "GLOBAL" "_" "" t eq_refl x). Qed.
Lemma d_skip t x : has_char "_" x = false -> (forall r, x <> r +++ "Data") ->
  replace "Data_" "Data." (x +++ String "_" t) = x +++ String "_" (replace "Data_" "Data." t).
Proof. exact (replace_skip "Data" "_" "Data." t eq_refl x). Qed.
Lemma g_absent x : has_char "_" x = false -> replace "GLOBAL_" "" x = x.
Proof. exact (replace_absent "_" "GLOBAL" "" x). Qed.
Lemma d_absent x : has_char "_" x = false -> replace "Data_" "Data." x = x.
Proof. exact (replace_absent "_" "Data" "Data." x). Qed.
Definition inner (name : string) : string := replace "Data_" "Data." (replace "GLOBAL_" "" name).

Lemma inner_global b : has_char "_" b = false -> inner ("GLOBAL_" +++ b) = b.
Proof.
  intro H. unfold inner. rewrite replace_found by discriminate. cbn [append].
  rewrite (g_absent b H). exact (replace_absent "_" "Data" "Data." b H).
Qed.

Lemma undotted_id b : has_char "." b = false -> undotted b = b.
Proof.
  unfold undotted. induction b as [|c b IH]; intro H; [reflexivity|]. cbn [smap]. cbn [has_char] in H.
  apply orb_false_iff in H. destruct H as [H1 H2]. rewrite Ascii.eqb_sym, H1, (IH H2). reflexivity.
Qed.

Lemma inner_plain b : has_char "_" b = false -> inner b = b.
Proof.
  intro H. unfold inner. rewrite (g_absent b H). exact (replace_absent "_" "Data" "Data." b H).
Qed.

Lemma data_not_global : forall r, "Data" <> r +++ "GLOBAL".
Proof. intros r H. apply (f_equal String.length) in H. rewrite sapp_length in H. cbn in H. lia. Qed.

Lemma inner_data b : has_char "_" b = false -> inner ("Data_" +++ b) = "Data." +++ b.
Proof.
  intro H. unfold inner.
  change ("Data_" +++ b) with ("Data" +++ String "_" b).
  rewrite (g_skip b "Data" eq_refl data_not_global).
  rewrite (g_absent b H).
  change ("Data" +++ String "_" b) with ("Data_" +++ b). rewrite replace_found by discriminate.
  rewrite (d_absent b H). reflexivity.
Qed.

Lemma inner_attr b r : simple b -> has_char "_" r = false -> inner (b +++ "_" +++ r) = b +++ "_" +++ r.
Proof.
  intros [B1 [B2 [B4 B5]]] R. unfold inner. change ("_" +++ r) with (String "_" r).
  rewrite (g_skip r b B1 B5).
  rewrite (g_absent r R).
  rewrite (d_skip r b B1 B4).
  rewrite (d_absent r R). reflexivity.
Qed.

Lemma inner_data_attr b r : simple b -> has_char "_" r = false -> inner ("Data_" +++ b +++ "_" +++ r) = ("Data." +++ b) +++ "_" +++ r.
Proof.
  intros [B1 [B2 [B4 B5]]] R. unfold inner. change ("_" +++ r) with (String "_" r).
  change ("Data_" +++ b +++ String "_" r) with ("Data" +++ String "_" (b +++ String "_" r)).
  rewrite (g_skip (b +++ String "_" r) "Data" eq_refl data_not_global).
  rewrite (g_skip r b B1 B5).
  rewrite (g_absent r R).
  change ("Data" +++ String "_" (b +++ String "_" r)) with ("Data_" +++ (b +++ String "_" r)).
  rewrite replace_found by discriminate.
  rewrite (d_skip r b B1 B4).
  rewrite (d_absent r R). reflexivity.
Qed.

Lemma undotted_data b : has_char "." b = false -> undotted ("Data." +++ b) = "Data_" +++ b.
Proof. intro H. change (undotted ("Data." +++ b)) with ("Data_" +++ undotted b). rewrite undotted_id by exact H. reflexivity. Qed.

Lemma inner_var n : var_named n -> inner (undotted n) = n /\ has_char "_" n = false.
Proof.
  intros [b [[B1 [B2 _]] [->| ->]]].
  - rewrite undotted_id by exact B2. split; [apply inner_plain; exact B1|exact B1].
  - rewrite undotted_data by exact B2. split; [apply inner_data; exact B1|]. rewrite has_char_app, B1. reflexivity.
Qed.

Lemma inner_vattr n r : var_named n -> has_char "_" r = false -> inner (undotted n +++ "_" +++ r) = n +++ "_" +++ r.
Proof.
  intros [b [S [->| ->]]] R; assert (B2 := proj1 (proj2 S)).
  - rewrite undotted_id by exact B2. apply inner_attr; assumption.
  - rewrite undotted_data by exact B2. rewrite sapp_assoc. apply inner_data_attr; assumption.
Qed.

(** ** Looking up names *)
Lemma get_plain f k n : ~ In k stream_members -> inner k = n -> has_char "_" n = false ->
  stream_get f k = match dget n (nf_vars f) with
                   | Some x => Ok (IVar x)
                   | None => match dget n (nf_attrs f) with
                             | Some v => Ok (IAttr v)
                             | None => Err (Exn EAttributeError (k +++ " is not contained in SOFA-file"))
                             end
                   end.
Proof.
  intros M I H. unfold stream_get. apply smem_false in M. rewrite M. fold (inner k). rewrite I. cbv zeta. rewrite H.
  cbn [rbind fst snd]. reflexivity.
Qed.

Lemma get_attr f k n r : ~ In k stream_members -> inner k = n +++ "_" +++ r -> has_char "_" n = false -> has_char "_" r = false ->
  stream_get f k = match dget n (nf_vars f) with
                   | Some x => stream_vattr x r
                   | None => match dget n (nf_attrs f) with
                             | Some v => Ok (IAttr v)
                             | None => Err (Exn EAttributeError (k +++ " is not contained in SOFA-file"))
                             end
                   end.
Proof.
  intros M I H R. unfold stream_get. apply smem_false in M. rewrite M. fold (inner k). rewrite I. cbv zeta.
  assert (HU : has_char "_" (n +++ "_" +++ r) = true) by (rewrite !has_char_app; cbn [has_char]; rewrite Ascii.eqb_refl, orb_true_r; reflexivity).
  rewrite HU. change ("_" +++ r) with (String "_" r). change "_" with (str1 "_").
  rewrite (split_app "_" n r H), (split_no_char "_" r R). cbn [rbind fst snd]. reflexivity.
Qed.

(** ** Unique names *)
Lemma NoDup_app_disjoint {A} (l m : list A) : NoDup (l ++ m) -> forall x, In x l -> ~ In x m.
Proof.
  induction l as [|y l IH]; intros N x I J; [destruct I|]. cbn in N. inversion N as [|z l' N1 N2]; subst.
  destruct I as [->|I]; [apply N1; apply in_or_app; right; exact J|exact (IH N2 x I J)].
Qed.
Lemma NoDup_app_r {A} (l m : list A) : NoDup (l ++ m) -> NoDup m.
Proof. induction l as [|y l IH]; [auto|]. cbn. intro N. inversion N; auto. Qed.
Lemma NoDup_app_l {A} (l m : list A) : NoDup (l ++ m) -> NoDup l.
Proof.
  induction l as [|y l IH]; intro N; [constructor|]. cbn in N. inversion N as [|z l' N1 N2]; subst.
  constructor; [|auto]. intro I. apply N1. apply in_or_app. left. exact I.
Qed.
Lemma nodup_flat {A} (g : A -> list string) (h : A -> string) l : (forall x, In x l -> In (h x) (g x)) ->
  NoDup (flat_map g l) -> NoDup (map h l).
Proof.
  induction l as [|x l IH]; intros H N; [constructor|]. cbn [flat_map map] in *. constructor.
  - intro I. apply in_map_iff in I. destruct I as [y [Q I]].
    apply (NoDup_app_disjoint _ _ N (h x)).
    + apply H. left. reflexivity.
    + apply in_flat_map. exists y. split; [exact I|]. rewrite <- Q. apply H. right. exact I.
  - apply IH; [intros y I; apply H; right; exact I|]. eapply NoDup_app_r. exact N.
Qed.

Section Unique.
Variable f : ncfile.
Hypothesis N : NoDup (file_names f).

Lemma attr_found a v : In (a, v) (nf_attrs f) -> dget a (nf_attrs f) = Some v.
Proof. apply In_dget. eapply NoDup_map_inv. eapply NoDup_app_l. exact N. Qed.

Lemma var_found n x : In (n, x) (nf_vars f) -> dget n (nf_vars f) = Some x.
Proof.
  apply In_dget. apply NoDup_app_r in N.
  assert (X : NoDup (map (fun nx : string * ncvar => undotted (fst nx)) (nf_vars f))).
  { eapply nodup_flat; [|exact N]. intros y _. left. reflexivity. }
  rewrite <- (map_map fst undotted) in X. apply NoDup_map_inv in X. exact X.
Qed.

Lemma vattr_found n x a v : In (n, x) (nf_vars f) -> In (a, v) (nv_attrs x) -> a <> "_Encoding" -> dget a (nv_attrs x) = Some v.
Proof.
  intros IX IA NE. apply NoDup_app_r in N. apply in_split in IX. destruct IX as [l [r Q]]. rewrite Q in N.
  rewrite flat_map_app in N. apply NoDup_app_r in N. cbn [flat_map fst snd] in N. apply NoDup_app_l in N.
  inversion N as [|z l' _ N2]. apply NoDup_map_inv in N2. clear -N2 IA NE.
  induction (nv_attrs x) as [|[b w] d IH]; [destruct IA|]. cbn [dkeys map fst filter] in N2.
  cbn [dget]. destruct (String.eqb_spec a b) as [<-|NB].
  - destruct IA as [IA|IA]; [injection IA as ->; reflexivity|]. exfalso.
    assert (B : negb (String.eqb a "_Encoding") = true) by (apply negb_true_iff, String.eqb_neq; exact NE).
    rewrite B in N2. inversion N2 as [|z l' N3 _]; subst. apply N3. apply filter_In. split; [|exact B].
    apply in_map_iff. exists (a, v). auto.
  - destruct IA as [IA|IA]; [congruence|]. apply IH; [exact IA|]. unfold dkeys.
    destruct (negb (String.eqb b "_Encoding")); [inversion N2; assumption|exact N2].
Qed.
End Unique.
