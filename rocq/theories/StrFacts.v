(** Lemmas about the Python string functions. *)
From Verif Require Import Base PyStr BaseFacts.
Open Scope string_scope.
Open Scope list_scope.

Lemma prefix_spec p s : String.prefix p s = true <-> exists r, s = p +++ r.
Proof.
  revert s. induction p as [|c p IH]; intro s; cbn.
  - split; [intros _; exists s; reflexivity | intros _; destruct s; reflexivity].
  - destruct s as [|d s]; cbn.
    + split; [discriminate | intros [r H]; discriminate].
    + destruct (ascii_dec c d) as [->|N]; cbn.
      * rewrite IH. split; intros [r H]; exists r; [subst; reflexivity | inversion H; reflexivity].
      * split; [discriminate | intros [r H]; inversion H; congruence].
Qed.

Lemma has_char_app c a b : has_char c (a +++ b) = has_char c a || has_char c b.
Proof. induction a as [|x a IH]; cbn; [reflexivity|]. rewrite IH. apply orb_assoc. Qed.

Lemma count_char_app c a b : count_char c (a +++ b) = count_char c a + count_char c b.
Proof. induction a as [|x a IH]; cbn; [reflexivity|]. rewrite IH. lia. Qed.

Lemma count_char_0 c s : count_char c s = 0 <-> has_char c s = false.
Proof.
  induction s as [|x s IH]; cbn; [tauto|].
  destruct (Ascii.eqb c x); cbn; [split; [lia|discriminate]|]. exact IH.
Qed.

(** splitting at the only occurrence of a character *)
Lemma split_unique c a b a' b' :
  has_char c a' = false -> has_char c b' = false ->
  a +++ String c b = a' +++ String c b' -> a = a' /\ b = b'.
Proof.
  revert a'. induction a as [|x a IH]; intros a' H1 H2 H; cbn in H.
  - destruct a' as [|y a']; cbn in H; inversion H; subst; [tauto|].
    cbn in H1. rewrite Ascii.eqb_refl in H1. discriminate.
  - destruct a' as [|y a']; cbn in H; inversion H; subst.
    + rewrite has_char_app in H2. cbn in H2. rewrite Ascii.eqb_refl in H2.
      rewrite orb_true_r in H2. discriminate.
    + cbn in H1. apply orb_false_iff in H1. destruct H1 as [_ H1].
      destruct (IH a' H1 H2 H4) as [-> ->]. tauto.
Qed.

Lemma after_last_app c a b : has_char c b = false -> after_last c (a +++ String c b) = b.
Proof.
  intro H. induction a as [|x a IH]; cbn.
  - rewrite H, Ascii.eqb_refl. reflexivity.
  - rewrite has_char_app. cbn. rewrite Ascii.eqb_refl, orb_true_r. exact IH.
Qed.

Lemma before_last_app c a b : has_char c b = false -> before_last c (a +++ String c b) = Some a.
Proof.
  intro H. induction a as [|x a IH]; cbn.
  - assert (N : before_last c b = None).
    { clear -H. induction b as [|x b IH]; cbn in *; [reflexivity|].
      apply orb_false_iff in H. destruct H as [H1 H2]. rewrite (IH H2), H1. reflexivity. }
    rewrite N, Ascii.eqb_refl. reflexivity.
  - rewrite IH. reflexivity.
Qed.

Lemma stake_app a b : stake (String.length a) (a +++ b) = a.
Proof. induction a as [|x a IH]; cbn; [destruct b; reflexivity|]. rewrite IH. reflexivity. Qed.

Lemma drop_end_app a b : drop_end (String.length b) (a +++ b) = a.
Proof.
  unfold drop_end. rewrite sapp_length.
  replace (String.length a + String.length b - String.length b) with (String.length a) by lia.
  apply stake_app.
Qed.

Lemma replace_char_has c d s : c <> d -> has_char c (replace_char c d s) = false.
Proof.
  intro N. induction s as [|x s IH]; cbn; [reflexivity|]. rewrite IH, orb_false_r.
  destruct (Ascii.eqb_spec c x) as [->|M].
  - apply Ascii.eqb_neq. congruence.
  - apply Ascii.eqb_neq. congruence.
Qed.

Lemma replace_char_keeps_no c d b s :
  has_char b s = false -> b <> d -> has_char b (replace_char c d s) = false.
Proof.
  intros H N. induction s as [|x s IH]; cbn in *; [reflexivity|].
  apply orb_false_iff in H. destruct H as [H1 H2]. rewrite (IH H2), orb_false_r.
  destruct (Ascii.eqb_spec c x) as [->|M]; [apply Ascii.eqb_neq; exact N | exact H1].
Qed.

Lemma replace_char_id c d s : has_char c s = false -> replace_char c d s = s.
Proof.
  induction s as [|x s IH]; cbn; [reflexivity|]. intro H.
  apply orb_false_iff in H. destruct H as [H1 H2]. rewrite H1, (IH H2). reflexivity.
Qed.

(** split by a single character *)
Lemma split_no_char c s : has_char c s = false -> split (str1 c) s = [s].
Proof.
  unfold split. induction s as [|x s IH]; cbn; [reflexivity|]. intro H.
  apply orb_false_iff in H. destruct H as [H1 H2]. cbn in IH.
  destruct (ascii_dec c x) as [->|N]; [rewrite Ascii.eqb_refl in H1; discriminate|].
  rewrite (IH H2). reflexivity.
Qed.

Lemma split_app c a b :
  has_char c a = false -> split (str1 c) (a +++ String c b) = a :: split (str1 c) b.
Proof.
  unfold split. induction a as [|x a IH]; cbn; intro H.
  - destruct (ascii_dec c c) as [_|N]; [destruct b; reflexivity | congruence].
  - apply orb_false_iff in H. destruct H as [H1 H2]. cbn in IH.
    destruct (ascii_dec c x) as [->|N]; [rewrite Ascii.eqb_refl in H1; discriminate|].
    rewrite (IH H2). reflexivity.
Qed.

Lemma lower_char_idem c : lower_char (lower_char c) = lower_char c.
Proof. destruct c as [[] [] [] [] [] [] [] []]; reflexivity. Qed.
Lemma upper_char_idem c : upper_char (upper_char c) = upper_char c.
Proof. destruct c as [[] [] [] [] [] [] [] []]; reflexivity. Qed.
Lemma upper_lower_char c : upper_char (lower_char c) = upper_char c.
Proof. destruct c as [[] [] [] [] [] [] [] []]; reflexivity. Qed.
Lemma lower_idem s : lower (lower s) = lower s.
Proof.
  unfold lower. induction s as [|c s IH]; [reflexivity|].
  cbn [smap]. rewrite IH, lower_char_idem. reflexivity.
Qed.
Lemma smap_length f s : String.length (smap f s) = String.length s.
Proof. induction s as [|c s IH]; cbn; [reflexivity|]. rewrite IH; reflexivity. Qed.
Lemma chars_length s : List.length (chars s) = String.length s.
Proof. induction s as [|c s IH]; cbn; [reflexivity|]. unfold chars in IH. rewrite IH; reflexivity. Qed.
