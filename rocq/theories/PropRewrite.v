(** C66: an object that has been read can be written again. *)
From Verif Require Import Base PyStr PyNum NdArray Sofa Verify Upgrade Utils Io Demo
  SpecAttr SpecInit SpecValue SpecVerify SpecUpgrade SpecEquals SpecIo SpecStore
  BaseFacts StrFacts AttrFacts OpFacts InitFacts ProtFacts AddDelFacts MissingFacts CoreFacts IssueFacts ValidFacts VerifyFacts
  DictFacts ShapeFacts DimFacts DemoFacts UpgradeFacts EqualsFacts WriteFacts ReadFacts IoFacts RoundFacts SameFacts AgainFacts
  TotalFacts RewriteFacts CheckFacts PropVerify PropEquals PropIo PropRound.
From Coq Require Import ZArith Lia.
Open Scope string_scope.
Open Scope list_scope.
Open Scope nat_scope.

(** ** C66 *)

(** The object [p] that is read from a file can be written to any file that can
    be written and read from there. The data are still those of the object
    written first. Missing: as in C32, and variables with names that end with
    "Units" ([C66_refuted]). *)
Theorem C66_write_again_partial :
  forall E name o s s' o' ev cv vo verbose ev2 p name2 path s2,
  db_ok E -> db_tidy E -> rules_tidy E -> dicts_ok o -> convention_of E o cv ->
  storable cv o -> faithful cv o -> readable_again E cv o ->
  (forall k e v, is_variable cv o k e v -> endswith "Units" k = false) ->
  write_sofa E name o s = (s', (o', ev, Ok tt)) ->
  read_sofa E s' name vo verbose = (ev2, Ok p) ->
  sofa_path name2 = Ok path -> fs_writable s2 path = true ->
  exists s3 p' ev3 ev4 p2,
    write_sofa E name2 p s2 = (s3, (p', ev3, Ok tt))
    /\ read_sofa E s3 name2 vo verbose = (ev4, Ok p2)
    /\ same_entries cv p p2 /\ same_entries cv o p2
    /\ (regular o -> forall x sx verbose', option_of x sx ->
         snd (equals p' p2 verbose' sx) = Ok true /\ snd (equals p2 p' verbose' sx) = Ok true
         /\ snd (equals o' p2 verbose' sx) = Ok true /\ snd (equals p2 o' verbose' sx) = Ok true).
Proof.
  intros E name o s s' o' ev cv vo verbose ev2 p name2 path s2 DB TD RT DO CO ST FA RA NU W R SP WR.
  destruct (read_back E name o s s' o' ev cv DB RT DO CO ST W FA RA NU vo verbose ev2 p R)
    as [c [v [VO [VP [DP [SQ [FQ [RQ [SE [TY [VA SI]]]]]]]]]]].
  destruct (va_name _ _ _ _ _ _ VP) as [b N]. destruct (va_version _ _ _ _ _ _ VP) as [w [N1 N2]].
  destruct (va_file _ _ _ _ _ _ VP) as [ct [F1 F2]].
  assert (CP : convention_of E p cv) by (exists b, c, w, ct; rewrite N2; auto).
  assert (CU : forall cv', convention_of E p cv' -> cv' = cv) by (intros cv' C'; apply (convention_unique E p cv cv' DB CP C')).
  destruct (warned_before E name o s s' o' ev W) as [e0 WB].
  assert (WV : exists e1, warn_version E p = (p, e1, Ok tt)).
  { destruct (va_name _ _ _ _ _ _ VO) as [b0 M]. destruct (va_version _ _ _ _ _ _ VO) as [w0 [M1 M2]].
    assert (A0 : is_attribute cv o "GLOBAL_SOFAConventionsVersion").
    { apply (fa_global _ _ FA "SOFAConventionsVersion"). apply dget_Some_In. eauto. }
    destruct (se_attrs _ _ _ SE _ A0) as [b1 [t1 [G1 G2]]].
    assert (A1 : is_attribute cv o "GLOBAL_SOFAConventions").
    { apply (fa_global _ _ FA "SOFAConventions"). apply dget_Some_In. eauto. }
    destruct (se_attrs _ _ _ SE _ A1) as [b2 [t2 [G3 G4]]]. rewrite M in G3. injection G3 as <- <-.
    apply (warn_version_same E o p b0 b1 false false c t1 e0 M G1 G4 G2 WB). }
  destruct WV as [e1 WV].
  destruct (write_again E name2 path p s2 e1 tt cv DB DP CU SQ (ex_intro _ c (ex_intro _ v (ex_intro _ cv VP))) RT WV SP WR)
    as [s3 [p' [ev3 W2]]].
  assert (SI2 : forall b c w, dget "GLOBAL_SOFAConventions" (pub p) = Some (VStr b c) ->
     dget "GLOBAL_SOFAConventionsVersion" (pub p) = Some w -> is_ok (snd (sofa_init E c false (py_str E w) vo)) = true).
  { intros b' c' w' M M1. assert (c' = c) by congruence. assert (w' = w) by congruence. subst c' w'. rewrite N2. exact SI. }
  destruct (total_read E name2 p s2 s3 p' ev3 cv DB RT DP CP SQ W2 FQ TD RQ vo verbose SI2) as [ev4 [p2 [R2 [TY2 [DP2 _]]]]].
  assert (SE2 := total_same E name2 p s2 s3 p' ev3 cv DB DP CP SQ W2 FQ _ _ _ _ R2).
  assert (SE3 : same_entries cv o p2) by (apply (same_entries_trans o cv p p2 TY SE SE2)).
  exists s3, p', ev3, ev4, p2. split; [exact W2|]. split; [exact R2|]. split; [exact SE2|]. split; [exact SE3|].
  intros RG x sx verbose' OX. assert (RP := regular_same E name o s s' o' ev cv DB DO CO W p TY RG SQ SE).
  destruct (total_equal E name2 p s2 s3 p' ev3 cv DB DP CP SQ W2 p2 verbose' x sx RP SE2 DP2 TY2 OX) as [Q1 Q2].
  assert (TY3 : forall k, contained o k -> exists e e', declared cv o k = Some e /\ dget k (conv p2) = Some e' /\ e_type e' = e_type e).
  { intros k C. destruct (TY k C) as [e [e' [D1 [D2 D3]]]]. apply (se_names _ _ _ SE) in C.
    destruct (TY2 k C) as [e3 [e4 [D4 [D5 D6]]]]. exists e, e4. split; [exact D1|]. split; [exact D5|]. congruence. }
  destruct (total_equal E name o s s' o' ev cv DB DO CO ST W p2 verbose' x sx RG SE3 DP2 TY3 OX) as [Q3 Q4]. auto.
Qed.
Print Assumptions C66_write_again_partial.

(** names of the variables of an object *)
Definition no_unit_variables (cv : convention) (o : sofa) : bool :=
  forallb (fun k => negb (endswith "Units" k)
                    || match declared cv o k with Some e => String.eqb (e_type e) "attribute" | None => true end) (dkeys (pub o)).
Lemma no_unit_variables_ok cv o : no_unit_variables cv o = true ->
  forall k e v, is_variable cv o k e v -> endswith "Units" k = false.
Proof.
  intros H k e v [D [T G]]. unfold no_unit_variables in H. rewrite forallb_forall in H.
  assert (C : In k (dkeys (pub o))) by (apply dget_Some_In; eauto). specialize (H k C). rewrite D in H. destruct (endswith "Units" k); [|reflexivity].
  cbn [negb orb] in H. apply String.eqb_eq in H. contradiction.
Qed.

(** the object of the example: written, read, written and read again *)
Definition twice_written (o : sofa) : res unit * res unit * res sofa :=
  let s := fst (write_sofa demo "a" o disk) in
  match snd (read_sofa demo s "a" VAuto true) with
  | Ok p => (m_res (snd (write_sofa demo "a" o disk)), m_res (snd (write_sofa demo "b" p s)),
             snd (read_sofa demo (fst (write_sofa demo "b" p s)) "b" VAuto true))
  | Err e => (m_res (snd (write_sofa demo "a" o disk)), Err e, Err e)
  end.

Example C66_case :
  (forall k e v, is_variable cv10 trip k e v -> endswith "Units" k = false)
  /\ (exists path, sofa_path "b" = Ok path /\ fs_writable disk path = true)
  /\ exists p, twice_written trip = (Ok tt, Ok tt, Ok p)
     /\ dget "SourceDescriptions" (pub p) = Some (VArr (Arr KU [2] [EStr "left"; EStr "right!"] false))
     /\ dget "Weight" (pub p) = Some (VArr (Arr KF [2; 1] (map flt [5; 6]%Z) false))
     /\ dget "Weight_Units" (pub p) = Some (VStr false "gram").
Proof.
  split; [apply no_unit_variables_ok; vm_compute; reflexivity|]. split; [eexists; split; vm_compute; reflexivity|].
  eexists. split; [vm_compute; reflexivity|]. split; [vm_compute; reflexivity|]. split; vm_compute; reflexivity.
Qed.

(** An object that is written and read but not written again: one text with two
    dimensions, in a variable with a name that ends with "Units", is read as an
    array. *)
Theorem C66_refuted :
  exists o e, dicts_ok o /\ twice_written o = (Ok tt, Err e, snd (twice_written o)) /\ exn_kind e = EAttributeError.
Proof.
  exists (m_obj (add_variable "MyUnits" (VStr false "kelvin") "string" (Some "IIS") trip)). eexists.
  split; [apply dicts_check; vm_compute; reflexivity|]. split; vm_compute; reflexivity.
Qed.
Print Assumptions C66_refuted.
