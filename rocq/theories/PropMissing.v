(** Missing data in files (C84). *)
From Verif Require Import Base PyStr PyNum NdArray Sofa Verify Utils Io Demo SpecAttr SpecInit SpecVerify SpecEquals SpecIo SpecStore
  BaseFacts StrFacts CoreFacts InitFacts ValidFacts DictFacts VerifyFacts DimFacts WriteFacts IoFacts ReadFacts CheckFacts RoundFacts SameFacts
  AgainFacts TotalFacts DemoFacts PropVerify PropIo PropRound.
From Coq Require Import ZArith Lia.
Open Scope Z_scope.
Open Scope string_scope.
Open Scope list_scope.
Open Scope nat_scope.

(** the [i]-th element of a value is missing *)
Definition missing (v : value) (i : nat) : Prop := nth_error (elements v) i = Some EObj.
(** the [i]-th element of a variable in a file holds the number that marks missing
    data *)
Definition marked (x : ncvar) (i : nat) : Prop :=
  exists k f d e, nv_data x = DNum k (Some f) d /\ nth_error d i = Some e /\ elt_eqb f e = true.

Lemma kept_missing l d : Forall2 kept_elt l d -> forall i, nth_error l i = Some EObj <-> nth_error d i = Some EObj.
Proof.
  induction 1 as [|x y l d K _ IH]; intros [|i]; cbn [nth_error]; try apply IH; try (split; intro H; discriminate H).
  destruct K as [[f [N ->]]|[-> ->]]; [|tauto]. split; intro H; [|discriminate H]. injection H as ->. inversion N.
Qed.

Lemma filed_marked l fs : Forall2 filed l fs -> (forall x f, In x l -> number x f -> f_eqb fill64 f = false) ->
  forall i, nth_error l i = Some EObj <-> exists e, nth_error (map EFlt fs) i = Some e /\ elt_eqb (EFlt fill64) e = true.
Proof.
  induction 1 as [|x f l fs F _ IH]; intros N [|i]; cbn [nth_error map].
  1,2: split; [intro H; discriminate H|intros [e [H _]]; discriminate H].
  - destruct F as [F|[-> ->]].
    + split; [intro H; injection H as ->; inversion F|]. intros [e [H Q]]. injection H as <-. cbn [elt_eqb] in Q.
      rewrite (N x f (or_introl eq_refl) F) in Q. discriminate Q.
    + split; [|reflexivity]. intros _. exists (EFlt fill64). split; [reflexivity|]. vm_compute. reflexivity.
  - apply IH. intros y g I. apply N. right. exact I.
Qed.

Lemma entries_missing cv o p k e v : same_entries cv o p -> is_variable cv o k e v -> e_type e = "double" ->
  exists w, dget k (pub p) = Some w /\ List.length (elements w) = List.length (elements v) /\ masked w = masked v
    /\ forall i, missing w i <-> missing v i.
Proof.
  intros SE IV T. destruct (se_numbers _ _ _ SE k e v IV T) as [w [s [d [W1 [W2 [W3 [W4 _]]]]]]]. exists w. split; [exact W1|].
  assert (EW : elements w = d).
  { destruct w; cbn [value_is elements] in *; [destruct W2; congruence|destruct W2 as [_ [W2 _]]; congruence|destruct W2 as [_ [W2 _]]; congruence|destruct W2]. }
  unfold missing. rewrite EW. split; [clear - W4; induction W4; cbn; congruence|]. split; [exact W3|].
  intro i. symmetry. apply kept_missing. exact W4.
Qed.

(** ** C84 *)

(** In the file exactly the missing elements are marked, and in what is read exactly
    the elements are missing that were missing before. Missing for the full claim:
    [faithful], numbers that are equal to the mark are read as missing data
    ([C84_refuted]). *)
Theorem C84_missing_data_partial :
  forall E name o s s' o' ev cv,
  db_ok E -> dicts_ok o -> convention_of E o cv -> storable cv o -> faithful cv o ->
  write_sofa E name o s = (s', (o', ev, Ok tt)) ->
  forall k e v, is_variable cv o k e v -> e_type e = "double" ->
  (exists f x, file_at s' name f /\ In (netcdf_name k, x) (nf_vars f)
     /\ prod (nv_shape x) = List.length (elements v) /\ forall i, marked x i <-> missing v i)
  /\ (forall ev2 p, read_sofa_as_netcdf s' name = (ev2, Ok p) ->
        exists w, dget k (pub p) = Some w /\ List.length (elements w) = List.length (elements v) /\ masked w = masked v
          /\ forall i, missing w i <-> missing v i)
  /\ (forall vo verbose ev2 p, read_sofa E s' name vo verbose = (ev2, Ok p) ->
        exists w, dget k (pub p) = Some w /\ List.length (elements w) = List.length (elements v) /\ masked w = masked v
          /\ forall i, missing w i <-> missing v i).
Proof.
  intros E name o s s' o' ev cv DB DO CO ST FA W k e v IV T. split; [|split].
  - destruct (total_verified E name o s s' o' ev cv DB DO CO W) as [a [ds [f [V [WC FI]]]]].
    destruct (var_file E o o' cv a ds f V WC k e v IV) as [x [IX SX]].
    destruct (stored_held E o o' cv a ds V ST k e v x IV SX) as [d [alt [n [sh [b [_ [_ [_ [_ [H5 _]]]]]]]]]].
    exists f, x. split; [exact FI|]. split; [exact IX|].
    assert (L := var_elements E o o' cv a ds V ST k e v IV).
    remember (nv_data x) as D eqn:ED. remember (nv_shape x) as SS eqn:ES.
    destruct H5 as [sh fs t X1 X2 [X3 [X4 X5]] X6 X7|sh ts t X1]; [|congruence].
    split; [congruence|]. intro i. unfold missing. rewrite (filed_marked _ _ X2) by (intros z g IZ NZ; apply (fa_numbers _ _ FA k e v z g IV IZ NZ)).
    unfold marked. rewrite <- ED. split.
    + intros [k0 [f0 [d0 [e0 [Q [N M]]]]]]. injection Q as _ <- <-. eauto.
    + intros [e0 [N M]]. exists KF, (EFlt fill64), (map EFlt fs), e0. auto.
  - intros ev2 p R. destruct (total_netcdf E name o s s' o' ev cv DB DO CO ST W FA) as [ev3 [p' [R' SE]]].
    rewrite R in R'. injection R' as _ <-. apply (entries_missing cv o p k e v SE IV T).
  - intros vo verbose ev2 p R. apply (entries_missing cv o p k e v (total_same E name o s s' o' ev cv DB DO CO ST W FA _ _ _ _ R) IV T).
Qed.
Print Assumptions C84_missing_data_partial.

(** the object with one missing and one other delay *)
Example C84_case :
  dicts_ok gaps /\ convention_of demo gaps cv10 /\ storable cv10 gaps /\ faithful cv10 gaps
  /\ (exists e v, is_variable cv10 gaps "Data_Delay" e v /\ e_type e = "double" /\ missing v 0 /\ ~ missing v 1)
  /\ exists p, written_and_read gaps = (Ok tt, Ok p)
     /\ dget "Data_Delay" (pub p) = Some (VArr (Arr KF [1; 2] [EObj; flt 3] true)).
Proof.
  destruct C32_missing_data_case as [C1 [C2 [C3 [C4 [_ C5]]]]].
  split; [exact C1|]. split; [exact C2|]. split; [exact C3|]. split; [exact C4|]. split; [|exact C5].
  do 2 eexists. split.
  - split; [vm_compute; reflexivity|]. split; [|vm_compute; reflexivity]. cbn [e_type]. discriminate.
  - split; [reflexivity|]. split; [reflexivity|]. unfold missing. cbn [elements a_data nth_error]. intro H. discriminate H.
Qed.

(** a number that is equal to the mark is not missing before writing and missing
    afterwards *)
Theorem C84_refuted :
  exists o v w p, written_and_read o = (Ok tt, Ok p)
    /\ dget "Data_Delay" (pub o) = Some v /\ dget "Data_Delay" (pub p) = Some w
    /\ (forall i, ~ missing v i) /\ missing w 0.
Proof.
  exists (put "Data_Delay" (VArr (Arr KF [1; 2] [EFlt fill64; flt 1] false)) trip).
  do 3 eexists. split; [vm_compute; reflexivity|]. split; [vm_compute; reflexivity|]. split; [vm_compute; reflexivity|].
  split; [|reflexivity]. intros [|[|i]]; unfold missing; cbn [elements a_data nth_error]; [| |destruct i]; intro H; discriminate H.
Qed.
Print Assumptions C84_refuted.
