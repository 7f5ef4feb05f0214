(** C102: the text of sofar.version(). *)
From Verif Require Import Base PyStr PyNum NdArray Sofa Verify Repr BaseFacts StrFacts RoundFacts CsvFacts IoFacts.
Open Scope string_scope.
Open Scope list_scope.

(** characters that Python counts as white space *)
Definition white (s : string) : Prop := forall c, In c (chars s) -> is_space c = true.
(** a text without white space at its ends *)
Definition trimmed (w : string) : Prop :=
  w = "" \/ (exists c t, w = String c t /\ is_space c = false) /\ (exists t c, w = t +++ str1 c /\ is_space c = false).
(** what follows the first line *)
Definition other_lines (r : string) : Prop := r = "" \/ exists t, r = nl +++ t.

Lemma lstrip_white a s : white a -> lstrip (a +++ s) = lstrip s.
Proof.
  induction a as [|c a IH]; intro W; [reflexivity|]. cbn [append lstrip]. rewrite (W c) by (left; reflexivity).
  apply IH. intros x I. apply W. right. exact I.
Qed.
Lemma white_rev a : white a -> white (srev a).
Proof.
  induction a as [|c a IH]; intros W; [exact W|]. rewrite srev_cons. intros x I. rewrite chars_app in I. apply in_app_or in I.
  destruct I as [I|[<-|[]]]; [|apply W; left; reflexivity]. apply IH; [|exact I]. intros y J. apply W. right. exact J.
Qed.
Lemma lstrip_all a : white a -> lstrip a = "".
Proof. intro W. rewrite <- (sapp_nil_r a), lstrip_white by exact W. reflexivity. Qed.

Lemma strip_trimmed a w b : white a -> white b -> trimmed w -> strip (a +++ w +++ b) = w.
Proof.
  intros A B [->|[[c [t [W1 C1]]] [t' [c' [W2 C2]]]]]; unfold strip; rewrite lstrip_white by exact A.
  - cbn [append]. rewrite (lstrip_all b B). reflexivity.
  - assert (L : lstrip (w +++ b) = w +++ b) by (rewrite W1; cbn [append lstrip]; rewrite C1; reflexivity).
    rewrite L, srev_append, lstrip_white by (apply white_rev; exact B).
    assert (L2 : lstrip (srev w) = srev w).
    { rewrite W2, srev_append. change (srev (str1 c')) with (str1 c'). cbn [append str1 lstrip]. rewrite C2. reflexivity. }
    rewrite L2. apply srev_srev.
Qed.

(** version() shows the version of sofar and the first line of the file VERSION without white
    space around it, however the line ends and whatever follows *)
Theorem C102_version : forall sofar a w b rest,
  white a -> white b -> trimmed w -> other_lines rest -> has_char (ascii_of_nat 10) (a +++ w +++ b) = false ->
  version_text sofar (a +++ w +++ b +++ rest) = "sofar v" +++ sofar +++ " implementing SOFA standard " +++ w.
Proof.
  intros sofar a w b rest A B W R N. unfold version_text. do 3 f_equal.
  rewrite <- !sapp_assoc, (sapp_assoc a w b).
  assert (H : hd "" (split (str1 (ascii_of_nat 10)) ((a +++ w +++ b) +++ rest)) = a +++ w +++ b).
  { destruct R as [->|[t ->]].
    - rewrite sapp_nil_r, (split_no_char _ _ N). reflexivity.
    - change (nl +++ t) with (String (ascii_of_nat 10) t). rewrite (split_app _ _ _ N). reflexivity. }
  rewrite H. apply strip_trimmed; assumption.
Qed.
Print Assumptions C102_version.

Example C102_case :
  version_text "1.2.2" ("2.1 (AES69-2022)" +++ str1 (ascii_of_nat 13) +++ nl +++ "second line" +++ nl)
    = "sofar v1.2.2 implementing SOFA standard 2.1 (AES69-2022)"
  /\ version_text "1.2.2" "2.1" = "sofar v1.2.2 implementing SOFA standard 2.1"
  /\ white (str1 (ascii_of_nat 13)) /\ trimmed "2.1 (AES69-2022)" /\ other_lines (nl +++ "second line" +++ nl).
Proof.
  split; [vm_compute; reflexivity|]. split; [vm_compute; reflexivity|].
  split; [intros c [<-|[]]; reflexivity|]. split.
  - right. split; [exists "2"%char, ".1 (AES69-2022)"; split; reflexivity|exists "2.1 (AES69-2022", ")"%char; split; reflexivity].
  - right. eauto.
Qed.
