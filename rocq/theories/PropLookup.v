(** Failed look-ups and reads say what is missing (C115). *)
From Verif Require Import Base PyStr PyNum NdArray Sofa Verify Upgrade Utils Io Stream Demo
  SpecAttr SpecInit SpecValue SpecVerify SpecUpgrade SpecEquals SpecIo SpecStore SpecStream SpecSwap
  BaseFacts StrFacts AttrFacts OpFacts InitFacts ProtFacts AddDelFacts MissingFacts CoreFacts IssueFacts ValidFacts VerifyFacts
  DictFacts ShapeFacts DimFacts DemoFacts EqualsFacts IoFacts OrderFacts StreamFacts PropVerify PropIo PropRound PropOption.
From Coq Require Import ZArith Lia.
Open Scope string_scope.
Open Scope list_scope.
Open Scope nat_scope.

Definition no_dimension (d : string) : exn :=
  Exn EValueError (d +++ " is not a valid dimension. See Sofa.list_dimensions for a list of valid dimensions.").

(** Asking an accepted object for a dimension gives its size, or says that there is no
    such dimension if no variable has it. *)
Theorem C115_dimension :
  forall E o, db_ok E -> rules_tidy E -> dicts_ok o -> is_ok (m_res (verify E HRaise VWrite o)) = true ->
  exists cv, convention_of E o cv
  /\ (forall d n, m_res (get_dimension E d o) = Ok n <-> size cv o d n)
  /\ (forall d x, m_res (get_dimension E d o) = Err x <-> x = no_dimension d /\ forall n, ~ size cv o d n).
Proof.
  intros E o DB RT DO OK.
  assert (VA := proj1 (verify_iff_valid E VWrite o DB RT DO) OK). destruct VA as [c [v [cv VA]]].
  assert (CV := valid_convention E VWrite o c v cv VA).
  assert (CO : complete E o).
  { intros cv' k e C' D M. rewrite (convention_unique E o cv cv' DB CV C') in D.
    apply (va_mandatory _ _ _ _ _ _ VA k e D M). }
  exists cv. split; [exact CV|].
  destruct (C13_modes_agree_partial E VWrite o DB DO CO) as [[x [o' [ev [H _]]]]|[o' [ev [e [w [H _]]]]]].
  { rewrite (H HRaise) in OK by discriminate. discriminate OK. }
  assert (HR := H HRaise). rewrite HR in OK by discriminate. specialize (HR ltac:(discriminate)).
  assert (e = "").
  { unfold m_res, answer in OK. cbn [snd] in OK. destruct (String.eqb_spec e "") as [Q|Q]; [exact Q|discriminate OK]. }
  subst e. cbn [answer String.eqb] in HR.
  destruct (verified_dims E VWrite o o' _ _ DB DO HR) as [cv' [a [ds [C' [A [_ [SZ _]]]]]]].
  assert (cv' = cv) by (apply (convention_unique E o cv cv' DB CV C')). subst cv'.
  assert (UD : update_dimensions E o = (o', (ev ++ told HReturn w "") ++ [], Ok tt)).
  { unfold update_dimensions. rewrite (bind_does _ _ _ _ _ _ (H HReturn ltac:(discriminate))).
    cbn [answer String.eqb]. reflexivity. }
  assert (GD : forall d, m_res (get_dimension E d o) = match dget d a with Some n => Ok n | None => Err (no_dimension d) end).
  { intro d. unfold get_dimension. rewrite (bind_does _ _ _ _ _ _ UD), bind_get, A. destruct (dget d a); reflexivity. }
  split.
  - intros d n. rewrite <- SZ, GD. destruct (dget d a); split; congruence.
  - intros d x. rewrite GD. split.
    + destruct (dget d a) as [m|] eqn:G; [discriminate|]. intro Q. injection Q as <-. split; [reflexivity|].
      intros n S. apply SZ in S. congruence.
    + intros [-> N]. destruct (dget d a) as [m|] eqn:G; [|reflexivity]. apply SZ in G. destruct (N m G).
Qed.
Print Assumptions C115_dimension.

(** The same for streams, which also say which data are not contained. *)
Theorem C115_stream :
  forall f,
  (forall d x, stream_get_dimension f d = Err x <-> x = no_dimension d /\ ~ In d (dkeys (nf_dims f)))
  /\ (forall name n, name = n \/ name = "GLOBAL_" +++ n -> has_char "_" n = false ->
      ~ In name stream_members -> ~ In n (dkeys (nf_vars f)) ->
      forall x, stream_get f name = Err x
        <-> x = Exn EAttributeError (name +++ " is not contained in SOFA-file") /\ ~ In n (dkeys (nf_attrs f))).
Proof.
  intro f. split.
  - intros d x. unfold stream_get_dimension. destruct (dget d (nf_dims f)) as [[n u]|] eqn:G.
    + split; [discriminate|]. intros [_ N]. destruct N. apply dget_Some_In. eauto.
    + apply dget_None in G. split; [intro Q; injection Q as <-; auto|]. intros [-> _]. reflexivity.
  - intros name n NN HC NM NV x. unfold stream_get. rewrite (proj2 (smem_false _ _) NM). cbv zeta.
    assert (R : replace "Data_" "Data." (replace "GLOBAL_" "" name) = n).
    { destruct NN as [->| ->]; [|exact (inner_global n HC)]. rewrite (g_absent n HC). exact (d_absent n HC). }
    rewrite R, HC. cbn [rbind fst snd]. rewrite (proj2 (dget_None _ _) NV). destruct (dget n (nf_attrs f)) as [v|] eqn:G.
    + split; [discriminate|]. intros [_ N]. destruct N. apply dget_Some_In. eauto.
    + apply dget_None in G. split; [intro Q; injection Q as <-; auto|]. intros [-> _]. reflexivity.
Qed.
Print Assumptions C115_stream.

(** Files that do not exist are named, with their suffix. *)
Theorem C115_file :
  forall E s name p vo verbose, sofa_path name = Ok p -> ~ In p (dkeys (fs_files s)) ->
  read_sofa E s name vo verbose = ([], Err (Exn EValueError (p +++ " does not exist")))
  /\ read_sofa_as_netcdf s name = ([], Err (Exn EValueError (p +++ " does not exist"))).
Proof.
  intros E s name p vo verbose SP N. apply dget_None in N. unfold read_sofa, read_sofa_as_netcdf, open_file.
  rewrite SP. cbn [rbind]. rewrite N. split; reflexivity.
Qed.
Print Assumptions C115_file.

(** Objects that were read and are not valid are not returned; the error tells how they
    can be read. *)
Theorem C115_invalid_file :
  forall E s name f c v verbose d evd ev0 p0, db_ok E -> rules_tidy E -> file_at s name f -> file_wf f ->
  file_text f "SOFAConventions" = Ok c -> file_text f "SOFAConventionsVersion" = Ok v ->
  sofa_init E c false v VNo = (evd, Ok d) -> valid E VRead d ->
  read_sofa E s name VNo verbose = (ev0, Ok p0) -> ~ valid E VRead p0 ->
  exists ev, read_sofa E s name VYes verbose = (ev, Err (Exn EValueError
    "The SOFA object could not be verified, maybe due to erroneous data. Call sofa=sofar.read_sofa(filename, verify=False) and then sofa.verify() to get more information")).
Proof.
  intros E s name f c v verbose d evd ev0 p0 DB RT FA WF FC FV SI VD R NV.
  assert (H := C90_read_partial E s name f c v verbose d evd DB RT FA WF FC FV SI VD). rewrite R in H. exact (proj2 H NV).
Qed.
Print Assumptions C115_invalid_file.

(** equals names an exclusion that it does not know, whatever the objects are. *)
Theorem C115_exclusion :
  forall a b verbose x, ~ In (upper x) ["GLOBAL"; "ATTR"; "DATE"] ->
  equals a b verbose (Some x) = ([], Err (Exn EValueError ("exclude is " +++ x +++ " but must be GLOBAL, DATE, or ATTR"))).
Proof.
  intros a b verbose x N. unfold equals, select.
  destruct (String.eqb_spec (upper x) "GLOBAL") as [Q|_]; [destruct N; rewrite Q; cbn; auto|].
  destruct (String.eqb_spec (upper x) "ATTR") as [Q|_]; [destruct N; rewrite Q; cbn; auto|].
  destruct (String.eqb_spec (upper x) "DATE") as [Q|_]; [destruct N; rewrite Q; cbn; auto|]. reflexivity.
Qed.
Print Assumptions C115_exclusion.

(** Files of unknown conventions or versions are refused with the name and version that
    the file states. *)
Lemma cv_fold c version (nv : list (string * string)) : (forall x, In x nv -> float_str (snd x) = Some (snd x)) ->
  (forall x, In x nv -> fst x = c -> snd x <> version) ->
  rfold (fun b cv => if String.eqb (fst cv) c then match float_str (snd cv) with
                    | None => Err (Exn EValueError (snd cv))
                    | Some f => Ok (b || String.eqb f version)
                    end else Ok b) nv false = Ok false.
Proof.
  induction nv as [|[a b] nv IH]; intros F N; [reflexivity|]. cbn [rfold fst snd].
  destruct (String.eqb_spec a c) as [->|NA].
  - assert (FL := F (c, b) (or_introl eq_refl)). cbn [snd] in FL. rewrite FL.
    assert (NE := N (c, b) (or_introl eq_refl) eq_refl). cbn [snd] in NE. rewrite (eqb_neq_s _ _ NE). cbn [orb rbind].
    apply IH; intros; [apply F|apply N]; try (right; assumption); assumption.
  - cbn [rbind]. apply IH; intros; [apply F|apply N]; try (right; assumption); assumption.
Qed.

Theorem C115_foreign_file :
  forall E s name f c v vo verbose, db_ok E -> file_at s name f ->
  file_text f "SOFAConventions" = Ok c -> file_text f "SOFAConventionsVersion" = Ok v ->
  ((forall v' content, ~ has_file E c v' content) ->
     read_sofa E s name vo verbose = ([], Err (Exn EValueError ("Convention '" +++ c +++ "' does not exist"))))
  /\ ((exists v' content, has_file E c v' content) -> (forall content, ~ has_file E c v content) ->
     read_sofa E s name vo verbose = ([], Err (Exn EValueError (c +++ " v" +++ v +++
       " is not a valid SOFA Convention.If you are trying to read the data use sofar.read_sofa_as_netcdf(). Call sofar.list_conventions() for a list of valid Conventions")))).
Proof.
  intros E s name f c v vo verbose DB [p [SP G]] FC FV.
  assert (R : read_sofa E s name vo verbose = match verify_convention_and_version E v c with Err e => ([], Err e) | Ok _ => read_sofa E s name vo verbose end).
  { unfold read_sofa, open_file. rewrite SP. cbn [rbind]. rewrite G. cbn [rbind]. rewrite FC. cbn [rbind]. rewrite FV. cbn [rbind].
    destruct (verify_convention_and_version E v c) as [u|e]; reflexivity. }
  rewrite R. clear R. destruct (name_version_spec E DB) as [nv [N1 N2]].
  assert (FW : forall x, In x nv -> (exists content, has_file E (fst x) (snd x) content) /\ float_str (snd x) = Some (snd x)).
  { clear N1. unfold has_file. induction N2 as [|g y l nv [H1 H2] F2 IH]; intros x I; [destruct I|]. destruct I as [<-|I].
    - split; [|exact H2]. exists (snd g). left. rewrite <- H1. destruct g; reflexivity.
    - destruct (IH x I) as [[ct C] Q]. split; [|exact Q]. exists ct. right. exact C. }
  split.
  - intro NF. unfold verify_convention_and_version. rewrite N1. cbn [rbind].
    assert (M : smem c (map fst nv) = false).
    { apply smem_false. intro I. apply in_map_iff in I. destruct I as [x [<- I]]. destruct (FW x I) as [[ct C] _]. destruct (NF _ _ C). }
    rewrite M. reflexivity.
  - intros [v' [ct C]] NF. assert (OK := verify_cv_ok E c v' ct DB C). unfold verify_convention_and_version in *. rewrite N1 in *. cbn [rbind] in *.
    destruct (smem c (map fst nv)); [|discriminate OK]. cbn [negb] in *.
    rewrite (cv_fold c v nv); [reflexivity|intros x I; apply (FW x I)|].
    intros x I Q1 Q2. destruct (FW x I) as [[ct' C'] _]. rewrite Q1, Q2 in C'. destruct (NF _ C').
Qed.
Print Assumptions C115_foreign_file.

Example C115_case :
  let f := file_of (fst (write_sofa demo "a" demo_sofa disk)) "a.sofa" in
  is_ok (m_res (verify demo HRaise VWrite demo_sofa)) = true
  /\ m_res (get_dimension demo "N" demo_sofa) = Ok 2
  /\ m_res (get_dimension demo "Q" demo_sofa) = Err (no_dimension "Q")
  /\ stream_get_dimension f "Q" = Err (no_dimension "Q")
  /\ stream_get f "GLOBAL_Mood" = Err (Exn EAttributeError "GLOBAL_Mood is not contained in SOFA-file")
  /\ snd (read_sofa demo disk "missing" VAuto true) = Err (Exn EValueError "missing.sofa does not exist")
  /\ snd (equals demo_sofa demo_sofa true (Some "all")) = Err (Exn EValueError "exclude is all but must be GLOBAL, DATE, or ATTR").
Proof. cbv zeta. repeat (split; [vm_compute; reflexivity|]). vm_compute. reflexivity. Qed.

(** a file of version 1.0 without this convention, or with another version of it *)
Example C115_foreign_case :
  let s := fst (write_sofa demo "a" demo_sofa disk) in
  file_text (file_of s "a.sofa") "SOFAConventions" = Ok "SimpleFreeFieldHRIR"
  /\ file_text (file_of s "a.sofa") "SOFAConventionsVersion" = Ok "1.0"
  /\ snd (read_sofa (with_db demo [("Old_0.4.json", old_conv)]) s "a" VAuto true)
     = Err (Exn EValueError "Convention 'SimpleFreeFieldHRIR' does not exist")
  /\ snd (read_sofa (with_db demo [("SimpleFreeFieldHRIR_0.4.json", hrir "0.4")]) s "a" VAuto true)
     = Err (Exn EValueError "SimpleFreeFieldHRIR v1.0 is not a valid SOFA Convention.If you are trying to read the data use sofar.read_sofa_as_netcdf(). Call sofar.list_conventions() for a list of valid Conventions").
Proof. cbv zeta. repeat (split; [vm_compute; reflexivity|]). vm_compute. reflexivity. Qed.
