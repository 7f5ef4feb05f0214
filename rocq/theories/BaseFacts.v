(** Lemmas about dictionaries, results and strings. *)
From Verif Require Import Base PyStr.
Open Scope string_scope.
Open Scope list_scope.

Lemma eqb_refl_s (s : string) : String.eqb s s = true.
Proof. apply String.eqb_refl. Qed.

Lemma eqb_neq_s (a b : string) : a <> b -> String.eqb a b = false.
Proof. intro H. apply String.eqb_neq. exact H. Qed.

Lemma smem_In (k : string) (l : list string) : smem k l = true <-> In k l.
Proof.
  unfold smem. rewrite existsb_exists. split.
  - intros [x [Hx He]]. apply String.eqb_eq in He. subst. exact Hx.
  - intro H. exists k. split; [exact H | apply eqb_refl_s].
Qed.

Lemma smem_false (k : string) (l : list string) : smem k l = false <-> ~ In k l.
Proof.
  split.
  - intros H C. apply smem_In in C. congruence.
  - intro H. destruct (smem k l) eqn:E; [|reflexivity].
    apply smem_In in E. contradiction.
Qed.

Section Dict.
Context {A : Type}.
Implicit Types (d c : dict A).

Lemma dget_dset_same k v d : dget k (dset k v d) = Some v.
Proof.
  induction d as [|[k' v'] d IH]; cbn.
  - rewrite eqb_refl_s. reflexivity.
  - destruct (String.eqb_spec k k') as [->|N]; cbn.
    + rewrite eqb_refl_s. reflexivity.
    + rewrite (eqb_neq_s _ _ N). exact IH.
Qed.

Lemma dget_dset_other k k' v d : k <> k' -> dget k (dset k' v d) = dget k d.
Proof.
  intro N. induction d as [|[j w] d IH]; cbn.
  - rewrite (eqb_neq_s _ _ N). reflexivity.
  - destruct (String.eqb_spec k' j) as [->|N2]; cbn.
    + rewrite (eqb_neq_s _ _ N). reflexivity.
    + destruct (String.eqb k j); [reflexivity | exact IH].
Qed.

Lemma dget_dset k k' v d :
  dget k (dset k' v d) = if String.eqb k k' then Some v else dget k d.
Proof.
  destruct (String.eqb_spec k k') as [->|N].
  - apply dget_dset_same.
  - apply dget_dset_other; exact N.
Qed.

Lemma dget_In k v d : dget k d = Some v -> In (k, v) d.
Proof.
  induction d as [|[k' v'] d IH]; cbn; [discriminate|].
  destruct (String.eqb_spec k k') as [->|N]; intro H.
  - inversion H; subst. left; reflexivity.
  - right; apply IH; exact H.
Qed.

Lemma dget_None k d : dget k d = None <-> ~ In k (dkeys d).
Proof.
  induction d as [|[k' v'] d IH]; cbn; [tauto|].
  destruct (String.eqb_spec k k') as [->|N].
  - split; [discriminate | intro H; exfalso; apply H; left; reflexivity].
  - rewrite IH. split; intros H C; [|apply H; right; exact C].
    destruct C as [C|C]; [congruence | exact (H C)].
Qed.

Lemma dget_Some_In k d : (exists v, dget k d = Some v) <-> In k (dkeys d).
Proof.
  destruct (dget k d) eqn:E.
  - split; [|eauto]. intros _. apply dget_In in E.
    apply (in_map fst) in E. exact E.
  - apply dget_None in E. split; [intros [v Hv]; discriminate | contradiction].
Qed.

Lemma dmem_In k d : dmem k d = true <-> In k (dkeys d).
Proof.
  unfold dmem. destruct (dget k d) eqn:E.
  - split; [|reflexivity]. intros _. apply dget_Some_In. eauto.
  - apply dget_None in E. split; [discriminate | contradiction].
Qed.

Lemma dmem_false k d : dmem k d = false <-> ~ In k (dkeys d).
Proof.
  rewrite <- dget_None. unfold dmem. destruct (dget k d); split; congruence.
Qed.

Lemma In_dget k v d : NoDup (dkeys d) -> In (k, v) d -> dget k d = Some v.
Proof.
  induction d as [|[k' v'] d IH]; cbn; [tauto|].
  intros ND [H|H].
  - inversion H; subst. rewrite eqb_refl_s. reflexivity.
  - inversion ND as [|? ? N1 N2]; subst.
    destruct (String.eqb_spec k k') as [->|N].
    + exfalso. apply N1. apply (in_map fst) in H. exact H.
    + apply IH; assumption.
Qed.

Lemma dkeys_dset_mem k v d : In k (dkeys d) -> dkeys (dset k v d) = dkeys d.
Proof.
  induction d as [|[k' v'] d IH]; cbn; [tauto|].
  destruct (String.eqb_spec k k') as [->|N]; cbn; intro H; [reflexivity|].
  destruct H as [H|H]; [congruence|]. f_equal. apply IH; exact H.
Qed.

Lemma dset_new k v d : ~ In k (dkeys d) -> dset k v d = d ++ [(k, v)].
Proof.
  induction d as [|[k' v'] d IH]; cbn; [reflexivity|].
  intro H. rewrite eqb_neq_s by (intro C; apply H; left; congruence).
  f_equal. apply IH. tauto.
Qed.

Lemma In_dkeys_dset k k' v d :
  In k (dkeys (dset k' v d)) <-> k = k' \/ In k (dkeys d).
Proof.
  rewrite <- !dget_Some_In. rewrite dget_dset.
  destruct (String.eqb_spec k k') as [->|N].
  - split; [tauto | eauto].
  - split; [tauto | intros [C|H]; [congruence | exact H]].
Qed.

Lemma dset_same k v d : dget k d = Some v -> dset k v d = d.
Proof.
  induction d as [|[k' v'] d IH]; cbn; [discriminate|].
  destruct (String.eqb_spec k k') as [->|N]; intro H.
  - inversion H; subst. reflexivity.
  - f_equal. apply IH; exact H.
Qed.

Lemma NoDup_dset k v d : NoDup (dkeys d) -> NoDup (dkeys (dset k v d)).
Proof.
  intro ND. destruct (in_dec string_dec k (dkeys d)) as [H|H].
  - rewrite dkeys_dset_mem by exact H. exact ND.
  - rewrite dset_new by exact H. unfold dkeys. rewrite map_app. cbn.
    apply NoDup_rev in ND. rewrite <- (rev_involutive (map fst d ++ [k])).
    apply NoDup_rev. rewrite rev_app_distr. cbn. constructor; [|exact ND].
    rewrite <- in_rev. exact H.
Qed.

Lemma dkeys_ddel_incl k k' d : In k (dkeys (ddel k' d)) -> In k (dkeys d).
Proof.
  induction d as [|[j w] d IH]; cbn; [tauto|].
  destruct (String.eqb k' j); cbn; tauto.
Qed.

Lemma dget_ddel_other k k' d : k <> k' -> dget k (ddel k' d) = dget k d.
Proof.
  intro N. induction d as [|[j w] d IH]; cbn; [reflexivity|].
  destruct (String.eqb_spec k' j) as [->|N2]; cbn.
  - rewrite (eqb_neq_s _ _ N). reflexivity.
  - destruct (String.eqb k j); [reflexivity | exact IH].
Qed.

Lemma dget_ddel_same k d : NoDup (dkeys d) -> dget k (ddel k d) = None.
Proof.
  intro ND. induction d as [|[j w] d IH]; cbn; [reflexivity|].
  inversion ND as [|? ? N1 N2]; subst.
  destruct (String.eqb_spec k j) as [->|N]; cbn.
  - apply dget_None. exact N1.
  - rewrite (eqb_neq_s _ _ N). apply IH; exact N2.
Qed.

Lemma NoDup_ddel k d : NoDup (dkeys d) -> NoDup (dkeys (ddel k d)).
Proof.
  induction d as [|[j w] d IH]; cbn; [tauto|].
  intro ND. inversion ND as [|? ? N1 N2]; subst.
  destruct (String.eqb k j); cbn; [exact N2|].
  constructor; [|apply IH; exact N2].
  intro C. apply N1. eapply dkeys_ddel_incl; exact C.
Qed.

Lemma ddel_not_in k d : ~ In k (dkeys d) -> ddel k d = d.
Proof.
  induction d as [|[j w] d IH]; cbn; [reflexivity|].
  intro H. rewrite eqb_neq_s by (intro C; apply H; left; congruence).
  f_equal. apply IH. tauto.
Qed.

Lemma ddel_filter k d : NoDup (dkeys d) ->
  ddel k d = filter (fun kv => negb (String.eqb k (fst kv))) d.
Proof.
  induction d as [|[j w] d IH]; cbn; [reflexivity|].
  intro ND. inversion ND as [|? ? N1 N2]; subst.
  destruct (String.eqb_spec k j) as [->|N]; cbn.
  - rewrite <- IH by exact N2. symmetry. apply ddel_not_in. exact N1.
  - f_equal. apply IH; exact N2.
Qed.

Lemma NoDup_filter_keys (f : string * A -> bool) d :
  NoDup (dkeys d) -> NoDup (dkeys (filter f d)).
Proof.
  induction d as [|[j w] d IH]; cbn; [tauto|].
  intro ND. inversion ND as [|? ? N1 N2]; subst.
  destruct (f (j, w)); cbn; [|apply IH; exact N2].
  constructor; [|apply IH; exact N2].
  intro C. apply N1. unfold dkeys in C. rewrite in_map_iff in C.
  destruct C as [x [Hx Hin]]. apply filter_In in Hin.
  unfold dkeys. rewrite in_map_iff. exists x. tauto.
Qed.

(** ordered fold of assignments *)
Lemma dget_fold_dset_notin k (l : list (string * A)) d :
  ~ In k (map fst l) ->
  dget k (fold_left (fun acc kv => dset (fst kv) (snd kv) acc) l d) = dget k d.
Proof.
  revert d. induction l as [|[j w] l IH]; cbn; intros d H; [reflexivity|].
  rewrite IH by tauto. apply dget_dset_other. intro C. apply H. left; congruence.
Qed.

Lemma dget_fold_dset_in k v (l : list (string * A)) d :
  NoDup (map fst l) -> In (k, v) l ->
  dget k (fold_left (fun acc kv => dset (fst kv) (snd kv) acc) l d) = Some v.
Proof.
  revert d. induction l as [|[j w] l IH]; cbn; intros d ND H; [tauto|].
  inversion ND as [|? ? N1 N2]; subst.
  destruct H as [H|H].
  - inversion H; subst. rewrite dget_fold_dset_notin by exact N1.
    apply dget_dset_same.
  - apply IH; assumption.
Qed.

Lemma NoDup_fold_dset {B} (f : B -> string * A) (l : list B) d :
  NoDup (dkeys d) ->
  NoDup (dkeys (fold_left (fun acc x => dset (fst (f x)) (snd (f x)) acc) l d)).
Proof.
  revert d. induction l as [|x l IH]; cbn; intros d ND; [exact ND|].
  apply IH. apply NoDup_dset. exact ND.
Qed.

End Dict.

(** strings *)
Lemma sapp_assoc (a b c : string) : (a +++ b) +++ c = a +++ b +++ c.
Proof. induction a as [|x a IH]; cbn; [reflexivity | f_equal; exact IH]. Qed.
Lemma sapp_nil_r (a : string) : a +++ "" = a.
Proof. induction a as [|x a IH]; cbn; [reflexivity | f_equal; exact IH]. Qed.
Lemma sapp_length (a b : string) :
  String.length (a +++ b) = String.length a + String.length b.
Proof. induction a as [|x a IH]; cbn; [reflexivity | f_equal; exact IH]. Qed.
Lemma sapp_eq_nil (a b : string) : a +++ b = "" <-> a = "" /\ b = "".
Proof. destruct a; cbn; split; intros H; try tauto; try (destruct H; congruence). discriminate. Qed.
Lemma sapp_inv_head (a b c : string) : a +++ b = a +++ c -> b = c.
Proof. induction a as [|x a IH]; cbn; intro H; [exact H|]. inversion H. auto. Qed.

Lemma eqb_head (a b : string) : String.eqb (a +++ b) a = String.eqb b "".
Proof.
  destruct (String.eqb_spec b "") as [->|N].
  - rewrite sapp_nil_r. apply eqb_refl_s.
  - apply eqb_neq_s. intro C. apply N. rewrite <- (sapp_nil_r a) in C at 2.
    apply sapp_inv_head in C. exact C.
Qed.

(** results *)
Lemma rbind_Ok {A B} (x : res A) (f : A -> res B) b :
  rbind x f = Ok b <-> exists a, x = Ok a /\ f a = Ok b.
Proof.
  destruct x; cbn; split; intro H.
  - eauto.
  - destruct H as [a' [H1 H2]]. inversion H1; subst; exact H2.
  - discriminate.
  - destruct H as [a' [H1 H2]]. discriminate.
Qed.

Lemma rmap_Ok_Forall2 {A B} (f : A -> res B) l r :
  rmap f l = Ok r <-> Forall2 (fun x y => f x = Ok y) l r.
Proof.
  revert r. induction l as [|x l IH]; cbn; intro r.
  - split; intro H; [inversion H; subst; constructor | inversion H; reflexivity].
  - destruct (f x) as [y|e] eqn:E; cbn.
    + destruct (rmap f l) as [ys|e] eqn:E2; cbn.
      * split; intro H.
        -- inversion H; subst. constructor; [exact E | apply IH; reflexivity].
        -- inversion H as [|? y' ? ys' H1 H2]; subst.
           rewrite E in H1. inversion H1; subst.
           apply IH in H2. inversion H2; subst. reflexivity.
      * split; intro H; [discriminate|].
        inversion H as [|? y' ? ys' H1 H2]; subst. apply IH in H2. discriminate.
    + split; intro H; [discriminate|].
      inversion H as [|? y' ? ys' H1 H2]; subst. congruence.
Qed.

Lemma forallb_false {A} (f : A -> bool) l :
  forallb f l = false -> exists x, In x l /\ f x = false.
Proof.
  induction l as [|x l IH]; cbn; [discriminate|].
  destruct (f x) eqn:E; cbn; intro H.
  - destruct (IH H) as [y [H1 H2]]. eauto.
  - eauto.
Qed.
