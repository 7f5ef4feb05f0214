(** What the words of the statements mean.

    Some theorems speak of mandatory entries, of versions or of csv files by
    the functions of the model. The theorems of this file say what these
    functions decide, independently of how they compute it. *)
From Coq Require Import ZArith NArith QArith Lia.
From Verif Require Import Base PyStr PyNum NdArray Sofa Verify Io UpdateConv
  SpecVerify SpecUpgrade BaseFacts StrFacts UpdateFacts PyLaws.
Open Scope string_scope.
Open Scope list_scope.
Open Scope nat_scope.

(** ** Flags of entries *)
Lemma char_inside c s : has_char c s = true <-> exists a b, s = a +++ str1 c +++ b.
Proof.
  rewrite law_has_char. split.
  - induction s as [|x s IH]; [intros []|]. intros [->|I].
    + exists "", s. reflexivity.
    + destruct (IH I) as [a [b ->]]. exists (String x a), b. reflexivity.
  - intros [a [b ->]]. induction a as [|x a IH]; [left; reflexivity|right; exact IH].
Qed.
(** mandatory entries have the flag "m" *)
Theorem C02_flag f : is_mandatory f = true <-> exists a b, f = Some (a +++ "m" +++ b).
Proof.
  unfold is_mandatory, flag_in. destruct f as [s|].
  - rewrite char_inside. split; intros [a [b H]]; exists a, b; [rewrite H; reflexivity|injection H as ->; reflexivity].
  - split; [discriminate|]. intros [a [b H]]. discriminate H.
Qed.
Print Assumptions C02_flag.
(** read only entries have the flag "r" *)
Theorem C01_flag f : is_read_only f = true <-> exists a b, f = Some (a +++ "r" +++ b).
Proof.
  unfold is_read_only, flag_in. destruct f as [s|].
  - rewrite char_inside. split; intros [a [b H]]; exists a, b; [rewrite H; reflexivity|injection H as ->; reflexivity].
  - split; [discriminate|]. intros [a [b H]]. discriminate H.
Qed.
Print Assumptions C01_flag.
Example C01_flag_case :
  is_read_only (Some "rm") = true /\ is_mandatory (Some "rm") = true /\ is_read_only (Some "m") = false
  /\ is_mandatory (Some "r") = false /\ is_mandatory None = false.
Proof. vm_compute. repeat split. Qed.

(** ** Names of the object itself *)
Theorem C03_private n : is_private n = true <-> exists r, n = "_" +++ r.
Proof. apply law_startswith. Qed.
Print Assumptions C03_private.

(** ** Files with conventions *)
(** csv files in the folder of the conventions and in its sub-folder
    "deprecated"; hidden files are ignored *)
Definition in_folder (p : string) : Prop :=
  (exists r, p = r +++ ".csv") /\ ~ In "/"%char (chars p) /\ forall r, p <> "." +++ r.
Lemma in_folder_iff p : top_csv p = true <-> in_folder p.
Proof.
  unfold top_csv, in_folder. rewrite !andb_true_iff, !negb_true_iff, law_endswith. split.
  - intros [[H1 H2] H3]. split; [exact H1|]. split.
    + intro I. apply law_has_char in I. congruence.
    + intros r ->. assert (startswith "." ("." +++ r) = true) by (apply law_startswith; exists r; reflexivity). congruence.
  - intros [H1 [H2 H3]]. split; [split; [exact H1|]|].
    + destruct (has_char "/" p) eqn:Q; [|reflexivity]. destruct H2. apply law_has_char. exact Q.
    + destruct (startswith "." p) eqn:Q; [|reflexivity]. apply law_startswith in Q. destruct Q as [r Q]. destruct (H3 r Q).
Qed.
Theorem C53_files p :
  (top_csv p = true <-> in_folder p)
  /\ (dep_csv p = true <-> exists q, p = "deprecated/" +++ q /\ in_folder q)
  /\ forall r, p = r +++ ".csv" -> json_name p = r +++ ".json".
Proof.
  split; [apply in_folder_iff|]. split.
  - unfold dep_csv. rewrite andb_true_iff, law_startswith. split.
    + intros [[q ->] H]. exists q. split; [reflexivity|]. apply in_folder_iff. exact H.
    + intros [q [-> H]]. split; [exists q; reflexivity|]. apply in_folder_iff. exact H.
  - intros r ->. unfold json_name.
    replace (r +++ ".csv") with ((r +++ ".") +++ "csv") by (rewrite sapp_assoc; reflexivity).
    change 3 with (String.length "csv").
    rewrite drop_end_app, sapp_assoc. reflexivity.
Qed.
Print Assumptions C53_files.
Example C53_files_case :
  top_csv "A_1.0.csv" = true /\ dep_csv "deprecated/A_1.0.csv" = true /\ top_csv ".A.csv" = false
  /\ top_csv "deprecated/A_1.0.csv" = false /\ dep_csv "deprecated/.A.csv" = false.
Proof. vm_compute. repeat split. Qed.

(** ** Numbers of versions *)
(** A version "i" or "i.f" is compared as a number *)
Definition number_of (i f : string) (q : Q) : Prop :=
  exists n m, decimal_of i = Some n /\ decimal_of f = Some m
    /\ (q == (Z.of_N n # 1) + (Z.of_N m # Pos.of_nat (10 ^ String.length f)))%Q.
Definition digits (s : string) : Prop := s <> "" /\ has_char "." s = false /\ decimal_of s <> None.
Theorem C25_numbers i f i' f' : digits i -> digits f -> digits i' -> digits f' ->
  exists d d' q q', parse_float (i +++ "." +++ f) = Some d /\ parse_float (i' +++ "." +++ f') = Some d'
    /\ number_of i f q /\ number_of i' f' q'
    /\ (dec_ltb d d' = true <-> (q < q')%Q).
Proof.
  assert (V : forall i f, digits i -> digits f ->
    exists d, parse_float (i +++ "." +++ f) = Some d /\ number_of i f (Q_of d)).
  { intros x y [I1 [I2 I3]] [F1 [F2 F3]]. destruct (law_parse_float x y I1 F1 I2 F2) as [_ P].
    destruct (decimal_of x) as [n|] eqn:D1; [|congruence]. destruct (decimal_of y) as [m|] eqn:D2; [|congruence].
    eexists. split; [exact P|]. exists n, m. split; [exact D1|]. split; [exact D2|].
    unfold Q_of, Qeq, Qplus. cbn [dm ds Qnum Qden]. rewrite Pos.mul_1_l, !pow10_pos. unfold pow10.
    rewrite N2Z.inj_add, N2Z.inj_mul. ring. }
  intros I F I' F'. destruct (V i f I F) as [d [P N]]. destruct (V i' f' I' F') as [d' [P' N']].
  exists d, d', (Q_of d), (Q_of d'). split; [exact P|]. split; [exact P'|]. split; [exact N|]. split; [exact N'|].
  apply law_dec.
Qed.
Print Assumptions C25_numbers.
Example C25_numbers_case : digits "10" /\ digits "04" /\ number_of "10" "04" (1004 # 100).
Proof.
  split; [split; [discriminate|split; [reflexivity|vm_compute; discriminate]]|].
  split; [split; [discriminate|split; [reflexivity|vm_compute; discriminate]]|].
  exists 10%N, 4%N. split; [reflexivity|]. split; reflexivity.
Qed.

(** A version is older if the first component that differs is smaller;
    components that are not given count as 0 *)
Definition components (s : string) (l : list N) : Prop :=
  List.length l = List.length (split "." s)
  /\ forall i, i < List.length l -> nth i (split "." s) "" <> "" /\ decimal_of (nth i (split "." s) "") = Some (nth i l 0%N).
Theorem C67_older s t a b : components s a -> components t b ->
  exists r, version_ltb s t = Ok r /\
    (r = true <-> exists i, (forall j, j < i -> nth j a 0%N = nth j b 0%N) /\ (nth i a 0 < nth i b 0)%N).
Proof.
  intros A B. apply law_parse_version in A. apply law_parse_version in B. unfold version_ltb. rewrite A, B.
  eexists. split; [reflexivity|]. apply law_version.
Qed.
Print Assumptions C67_older.
Example C67_older_case : components "1.9" [1; 9]%N /\ components "1.10.0" [1; 10; 0]%N /\ version_ltb "1.9" "1.10.0" = Ok true.
Proof.
  split; [apply law_parse_version; reflexivity|]. split; [apply law_parse_version; reflexivity|reflexivity].
Qed.

(** ** Names of variables *)
(** the variable "Data" is written with a point *)
Theorem C32_names v : nowhere "Data_" v -> netcdf_name v = v /\ netcdf_name ("Data_" +++ v) = "Data." +++ v.
Proof.
  intro H. assert (R : replace "Data_" "Data." v = v) by (apply law_replace; [discriminate|exact H]).
  split; [exact R|]. unfold netcdf_name.
  rewrite (proj2 (law_replace "Data_" "Data." ("Data_" +++ v) ltac:(discriminate)) "" v).
  - rewrite R. reflexivity.
  - split; [reflexivity|]. intros a' b' _. cbn. lia.
Qed.
Print Assumptions C32_names.
Example C32_names_case : nowhere "Data_" "IR" /\ netcdf_name "Data_IR" = "Data.IR" /\ netcdf_name "SourcePosition" = "SourcePosition".
Proof.
  split; [|split; reflexivity]. intros a b Q. assert (L := f_equal String.length Q). rewrite !slength_app in L. cbn in L. lia.
Qed.

(** ** Positions in arrays *)
(** The elements are numbered from 0 on without gaps; an element comes before
    another one if its first index that differs is smaller *)
Theorem C49_positions s :
  (forall idx, in_bounds s idx -> ravel s idx < prod s)
  /\ (forall n, n < prod s -> exists idx, in_bounds s idx /\ ravel s idx = n)
  /\ (forall p i r j q, in_bounds s (p ++ i :: r) -> in_bounds s (p ++ j :: q) -> i < j ->
        ravel s (p ++ i :: r) < ravel s (p ++ j :: q)).
Proof. apply law_ravel. Qed.
Print Assumptions C49_positions.
Example C49_positions_case : in_bounds [2; 3] [1; 0] /\ in_bounds [2; 3] [0; 2] /\ ravel [2; 3] [1; 0] = 3 /\ ravel [2; 3] [0; 2] = 2.
Proof. split; [repeat constructor|]. split; [repeat constructor|]. split; reflexivity. Qed.

(** Axes of size one are left out, the others keep their order *)
Theorem C40_squeezed s : ~ In 1 (sh_squeeze s) /\ prod (sh_squeeze s) = prod s
  /\ exists keep, List.length keep = List.length s
      /\ sh_squeeze s = map fst (filter snd (combine s keep))
      /\ forall i, i < List.length s -> nth i keep false = negb (nth i s 0 =? 1).
Proof. apply law_squeeze. Qed.
Print Assumptions C40_squeezed.
Example C40_squeezed_case : sh_squeeze [1; 4; 1; 2] = [4; 2].
Proof. reflexivity. Qed.

(** ** Texts of verify and read_sofa *)

(** What is said for warnings [w] and errors [e], with the titles of the two sections *)
Theorem C13_titles : forall w e, w <> "" -> e <> "" ->
  let newline := String (Ascii.ascii_of_nat 10) "" in
  let warnings := newline +++ "WARNINGS" +++ newline +++ "--------" +++ newline +++ w in
  let errors := newline +++ "ERRORS" +++ newline +++ "------" +++ newline +++ e in
  told HRaise w e = [EvWarn warnings] /\ told HPrint w e = [EvPrint warnings; EvPrint errors]
  /\ told HReturn w e = [] /\ told HIgnore w e = []
  /\ told HRaise "" e = [] /\ told HPrint "" e = [EvPrint errors] /\ told HPrint w "" = [EvPrint warnings]
  /\ answer HRaise w e = Err (Exn EValueError errors) /\ answer HRaise w "" = Ok None
  /\ answer HReturn w e = Ok (Some (errors +++ newline +++ warnings)) /\ answer HReturn "" e = Ok (Some errors)
  /\ answer HReturn w "" = Ok None /\ answer HPrint w e = Ok None /\ answer HIgnore w e = Ok None.
Proof.
  intros w e W F. apply String.eqb_neq in W, F.
  unfold told, answer. rewrite W, F. cbn [String.eqb app].
  assert (Q : forall x, err_head +++ e +++ x = (String (Ascii.ascii_of_nat 10) "" +++ "ERRORS" +++ String (Ascii.ascii_of_nat 10) "" +++ "------" +++ String (Ascii.ascii_of_nat 10) "" +++ e) +++ x)
    by (intro x; cbn; reflexivity).
  rewrite !Q, !sapp_nil_r. repeat split.
Qed.
Print Assumptions C13_titles.

(** The error of reading an invalid file says how to learn more. *)
Theorem C90_message : msg_not_verified =
  "The SOFA object could not be verified, maybe due to erroneous data. Call " +++
  "sofa=sofar.read_sofa(filename, verify=False) and then sofa.verify() to get more information".
Proof. reflexivity. Qed.
Print Assumptions C90_message.

Example C13_titles_case :
  answer HReturn "be careful" "wrong" = Ok (Some (nl +++ "ERRORS" +++ nl +++ "------" +++ nl +++ "wrong" +++ nl
    +++ nl +++ "WARNINGS" +++ nl +++ "--------" +++ nl +++ "be careful")).
Proof. reflexivity. Qed.
