(** C30-C40: reading and writing files. *)
From Verif Require Import Base PyStr PyNum NdArray Sofa Verify Upgrade Utils Io Demo
  SpecAttr SpecInit SpecValue SpecVerify SpecUpgrade SpecEquals SpecIo
  BaseFacts StrFacts AttrFacts OpFacts InitFacts ProtFacts AddDelFacts MissingFacts CoreFacts ValidFacts VerifyFacts
  DictFacts DimFacts IssueFacts DemoFacts UpgradeFacts EqualsFacts WriteFacts ReadFacts IoFacts PropVerify.
From Coq Require Import ZArith Lia.
Open Scope string_scope.
Open Scope list_scope.
Open Scope nat_scope.

(** a disk with a file that is no SOFA file and a protected directory *)
Definition disk : fs :=
  Fs [("old.sofa", Some empty_file); ("text.sofa", None)] (fun p => negb (startswith "/sys/" p)).

(** ** C30 *)
Theorem C30_invalid_not_written :
  forall E name o s, db_ok E -> rules_tidy E -> dicts_ok o -> ~ valid E VWrite o ->
  exists o' ev e, write_sofa E name o s = (s, (o', ev, Err e)).
Proof.
  intros E name o s DB RT DO NV. destruct (write_sofa_cases E name o s) as [H|[o' [ev [p [f [r [H _]]]]]]]; [exact H|].
  exfalso. apply NV. apply prepare_write_Ok in H. destruct H as [_ [e1 [e2 [x [V _]]]]].
  apply verify_iff_valid; [exact DB|exact RT|exact DO|]. rewrite V. reflexivity.
Qed.
Print Assumptions C30_invalid_not_written.

(** whatever happens, no other file is touched *)
Theorem C30_other_files :
  forall E name o s q, sofa_path name <> Ok q ->
  dget q (fs_files (fst (write_sofa E name o s))) = dget q (fs_files s).
Proof.
  intros E name o s q NQ. destruct (write_sofa_cases E name o s) as [[o' [ev [e ->]]]|[o' [ev [p [f [r [H [_ [_ ->]]]]]]]]].
  - reflexivity.
  - cbn [fst fs_set fs_files]. apply dget_dset_other. intros ->. apply prepare_write_Ok in H. destruct H as [H _]. congruence.
Qed.
Print Assumptions C30_other_files.

Definition polar : sofa := put "ListenerPosition_Type" (VStr false "polar") demo_sofa.
Example C30_case :
  ~ valid demo VWrite polar
  /\ fst (write_sofa demo "old.sofa" polar disk) = disk
  /\ (exists m, m_res (snd (write_sofa demo "old.sofa" polar disk)) = Err (Exn EValueError m))
  /\ (exists f, dget "old.sofa" (fs_files (fst (write_sofa demo "old.sofa" demo_sofa disk))) = Some (Some f)
        /\ List.length (nf_vars f) = 8)
  /\ sofa_path "old" <> Ok "text.sofa".
Proof.
  split.
  { intro V. apply (verify_iff_valid demo VWrite polar demo_db_ok demo_rules_tidy) in V.
    - vm_compute in V. discriminate V.
    - apply put_dicts. apply demo_dicts. }
  split; [vm_compute; reflexivity|]. split; [eexists; vm_compute; reflexivity|].
  split; [eexists; split; vm_compute; reflexivity|]. vm_compute. intro H. discriminate H.
Qed.

(** ** C34 *)

(** objects before and after the verification at the end of read_sofa *)
Lemma read_pub E s name vo verbose ev p : read_sofa E s name vo verbose = (ev, Ok p) ->
  exists f c v ev0 o q ev1 cu,
    file_at s name f /\ file_text f "SOFAConventions" = Ok c /\ file_text f "SOFAConventionsVersion" = Ok v
    /\ sofa_init E c false v vo = (ev0, Ok o) /\ read_content f o = (q, ev1, Ok cu) /\ pub p = pub q /\ (prot q = true -> prot p = true).
Proof.
  intro H. apply read_sofa_Ok in H.
  destruct H as [f [c [v [ev0 [o [q [ev1 [cu [H1 [H2 [H3 [_ [H4 [H5 [ver [_ H6]]]]]]]]]]]]]]]].
  exists f, c, v, ev0, o, q, ev1, cu. repeat (split; [assumption|]).
  destruct ver; [|subst; auto]. destruct H6 as [ev2 [r H6]].
  assert (P1 := proj1 (verify_raise_pub (normative_keys E) E VRead q)). change (pub (m_obj (verify E HRaise VRead q)) = pub q) in P1.
  rewrite H6 in P1. split; [exact P1|].
  destruct (raise_ok_core _ _ _ _ _ _ H6) as [o1 [e1 [w [a [d [R [_ [_ [_ [OD _]]]]]]]]]].
  rewrite OD. reflexivity.
Qed.

Theorem C34_exact_content :
  forall E s name vo verbose ev f p,
  file_at s name f -> file_wf f -> NoDup (file_names f) ->
  read_sofa E s name vo verbose = (ev, Ok p) -> same_data f p.
Proof.
  intros E s name vo verbose ev f p FA WF N H. apply read_pub in H.
  destruct H as [f' [c [v [ev0 [o [q [ev1 [cu [FA' [_ [_ [SI [RC [PP _]]]]]]]]]]]]]].
  assert (f' = f) by (apply open_file_Ok in FA; apply open_file_Ok in FA'; congruence). subst f'.
  assert (DO := init_dicts _ _ _ _ _ _ _ SI).
  destruct (read_content_Ok _ _ _ _ _ WF (proj1 DO) RC) as [its [FI [_ [_ [-> _]]]]].
  apply (items_same_data f its p WF N FI). intro k. rewrite PP. apply left_over_dget.
Qed.
Print Assumptions C34_exact_content.

(** a file of the convention without optional data, with data of its own *)
Definition file_of (s : fs) (p : string) : ncfile :=
  match dget p (fs_files s) with Some (Some f) => f | _ => empty_file end.
Definition small_file : ncfile :=
  let f := file_of (fst (write_sofa demo "a" demo_sofa disk)) "a.sofa" in
  NcFile (nf_dims f) (nf_attrs f ++ [("Owner", VList [VStr false "A"; VStr false "B"])])
    (filter (fun nx => negb (smem (fst nx) ["RoomTemperature"; "Data.Delay"])) (nf_vars f)
     ++ [("Data.Delay", NcVar ["I"; "R"] [1; 2] (DNum KF (Some (EFlt fill64)) [EFlt (f_of_Z 7); EFlt (f_of_Z 8)])
            [("_Encoding", VStr false "ascii"); ("Units", VStr false "samples")]);
         ("Words", NcVar ["R"; "S"] [2; 3] (DChar ("one" +++ "is" +++ nuls 1)) [])]).
Definition disk2 : fs := fs_set "b.sofa" small_file disk.

Definition attr_wfb (v : value) : bool :=
  match v with
  | VStr _ _ | VArr _ => true
  | VScal (EInt _) | VScal (EFlt _) => true
  | VList (VStr false _ :: VStr false _ :: r) => forallb (fun x => match x with VStr false _ => true | _ => false end) r
  | _ => false
  end.
Definition var_wfb (x : ncvar) : bool :=
  match nv_data x with
  | DNum KF _ d => Nat.eqb (List.length d) (prod (nv_shape x)) && forallb (fun e => match e with EFlt _ => true | _ => false end) d
  | DNum KI _ d => Nat.eqb (List.length d) (prod (nv_shape x)) && forallb (fun e => match e with EInt _ => true | _ => false end) d
  | DNum _ _ _ => false
  | DChar t => Nat.eqb (String.length t) (prod (nv_shape x))
  | DOther => true
  end.
Definition file_wfb (f : ncfile) : bool :=
  forallb (fun av => attr_wfb (snd av)) (nf_attrs f)
  && forallb (fun nx => var_wfb (snd nx) && forallb (fun av => attr_wfb (snd av)) (nv_attrs (snd nx))) (nf_vars f).

Lemma attr_wfb_ok v : attr_wfb v = true -> attr_wf v.
Proof.
  destruct v as [b s|e|a|l]; cbn; auto.
  - destruct e; try discriminate; auto.
  - destruct l as [|x l]; [discriminate|]. destruct x as [b s| | |]; try discriminate. destruct b; [discriminate|].
    destruct l as [|y l]; [discriminate|]. destruct y as [b t| | |]; try discriminate. destruct b; [discriminate|].
    intro H. assert (X : exists r, l = map (VStr false) r).
    { induction l as [|z l IH]; [exists []; reflexivity|]. cbn in H. destruct z as [b u| | |]; try discriminate.
      destruct b; [discriminate|]. destruct (IH H) as [r ->]. exists (u :: r). reflexivity. }
    destruct X as [r ->]. exists s, t, r. reflexivity.
Qed.
Lemma var_wfb_ok x : var_wfb x = true -> var_wf x.
Proof.
  unfold var_wfb, var_wf. destruct (nv_data x) as [k fill d|t|]; [|apply Nat.eqb_eq|auto].
  destruct k; try discriminate; rewrite andb_true_iff, Nat.eqb_eq, forallb_forall; intros [H1 H2]; split; auto; split; auto;
    intros e I; specialize (H2 e I); destruct e; try discriminate; reflexivity.
Qed.
Lemma file_wfb_ok f : file_wfb f = true -> file_wf f.
Proof.
  unfold file_wfb. rewrite andb_true_iff, !forallb_forall. intros [H1 H2]. split.
  - intros a v I. apply attr_wfb_ok. exact (H1 _ I).
  - intros n x I. specialize (H2 _ I). apply andb_true_iff in H2. apply var_wfb_ok. tauto.
  - intros n x a v I J. specialize (H2 _ I). apply andb_true_iff in H2. destruct H2 as [_ H2].
    rewrite forallb_forall in H2. apply attr_wfb_ok. exact (H2 _ J).
Qed.
Fixpoint nodupb (l : list string) : bool :=
  match l with [] => true | x :: t => negb (smem x t) && nodupb t end.
Lemma nodupb_ok l : nodupb l = true -> NoDup l.
Proof.
  induction l as [|x l IH]; [constructor|]. cbn. rewrite andb_true_iff, negb_true_iff. intros [H1 H2].
  constructor; [apply smem_false; exact H1|auto].
Qed.

Example C34_case :
  file_at disk2 "b" small_file /\ file_wf small_file /\ NoDup (file_names small_file)
  /\ exists ev p, read_sofa demo disk2 "b" VNo true = (ev, Ok p)
       /\ dget "RoomTemperature" (pub p) = None
       /\ dget "Data_Delay" (pub p) = Some (VArr (Arr KF [1; 2] [EFlt (f_of_Z 7); EFlt (f_of_Z 8)] false))
       /\ dget "Words" (pub p) = Some (VArr (Arr KU [2] [EStr "one"; EStr "is"] false))
       /\ dget "GLOBAL_Owner" (pub p) = Some (VArr (Arr KU [1; 2] [EStr "A"; EStr "B"] false)).
Proof.
  split; [eexists; split; vm_compute; reflexivity|]. split; [apply file_wfb_ok; vm_compute; reflexivity|].
  split; [apply nodupb_ok; vm_compute; reflexivity|].
  eexists; eexists. split; [vm_compute; reflexivity|]. repeat split; vm_compute; reflexivity.
Qed.

(** ** C35 *)
Theorem C35_any_file :
  forall s name f, file_at s name f -> file_wf f -> NoDup (file_names f) -> file_readable f ->
  exists ev p, read_sofa_as_netcdf s name = (ev, Ok p) /\ same_data f p.
Proof.
  intros s name f FA WF N RD. destruct (readable_items f WF RD) as [its FI].
  assert (RC := read_content_eq f empty_sofa its empty_nodup (fun k I => match I with end) FI
                  (readable_accessible f RD) (readable_clean f its RD FI)).
  unfold read_sofa_as_netcdf. apply open_file_Ok in FA. rewrite FA.
  rewrite (bind_does _ _ _ _ _ _ RC). unfold ret, m_obj, m_out, m_res. cbn [fst snd finished].
  eexists; eexists. split; [reflexivity|]. apply (items_same_data f its _ WF N FI). intro k. apply left_over_dget.
Qed.
Print Assumptions C35_any_file.

(** files with names that are the same in Python included *)
Theorem C35_agree :
  forall E s name vo verbose ev p ev' q f, file_at s name f -> file_wf f ->
  read_sofa E s name vo verbose = (ev, Ok p) -> read_sofa_as_netcdf s name = (ev', Ok q) ->
  forall k, dget k (pub p) = dget k (pub q).
Proof.
  intros E s name vo verbose ev p ev' q f FA WF H1 H2 k. apply read_pub in H1.
  destruct H1 as [f1 [c [v [ev0 [o [p1 [ev1 [cu [FA1 [_ [_ [SI [RC1 [PP _]]]]]]]]]]]]]].
  apply read_netcdf_Ok in H2. destruct H2 as [f2 [cu2 [FA2 RC2]]].
  assert (f1 = f) by (apply open_file_Ok in FA; apply open_file_Ok in FA1; congruence). subst f1.
  assert (f2 = f) by (apply open_file_Ok in FA; apply open_file_Ok in FA2; congruence). subst f2.
  assert (DO := init_dicts _ _ _ _ _ _ _ SI).
  destruct (read_content_Ok _ _ _ _ _ WF (proj1 DO) RC1) as [its1 [FI1 [_ [_ [E1 _]]]]].
  destruct (read_content_Ok _ _ _ _ _ WF empty_nodup RC2) as [its2 [FI2 [_ [_ [E2 _]]]]].
  assert (its2 = its1) by congruence. subst its2.
  rewrite PP, E1, E2, !left_over_dget. reflexivity.
Qed.
Print Assumptions C35_agree.

(** whatever read_sofa can read can be read without the convention *)
Theorem C35_no_convention_needed :
  forall E s name vo verbose ev p, (forall f, file_at s name f -> file_wf f) ->
  read_sofa E s name vo verbose = (ev, Ok p) ->
  exists ev' q, read_sofa_as_netcdf s name = (ev', Ok q).
Proof.
  intros E s name vo verbose ev p WF H. apply read_pub in H.
  destruct H as [f [c [v [ev0 [o [p1 [ev1 [cu [FA [_ [_ [SI [RC _]]]]]]]]]]]]].
  assert (DO := init_dicts _ _ _ _ _ _ _ SI).
  destruct (read_content_Ok _ _ _ _ _ (WF f FA) (proj1 DO) RC) as [its [FI [AC [CL _]]]].
  assert (RC2 := read_content_eq f empty_sofa its empty_nodup (fun k I => match I with end) FI AC CL).
  unfold read_sofa_as_netcdf. apply open_file_Ok in FA. rewrite FA.
  rewrite (bind_does _ _ _ _ _ _ RC2). unfold ret, m_obj, m_out, m_res. cbn [fst snd finished]. eauto.
Qed.
Print Assumptions C35_no_convention_needed.

(** a file without any convention *)
Definition weather : ncfile :=
  NcFile [("time", (2, false)); ("n", (4, false))] [("title", VStr false "rain"); ("year", VScal (EInt 2001%Z))]
    [("t.max", NcVar ["time"] [2] (DNum KI None [EInt 5%Z; EInt 6%Z]) [("unit", VStr false "K")]);
     ("place", NcVar ["n"] [4] (DChar ("Rom" +++ nuls 1)) [])].
Definition disk3 : fs := fs_set "w.sofa" weather disk2.

Example C35_case :
  file_at disk3 "w.nc" weather /\ file_wf weather /\ NoDup (file_names weather) /\ file_readable weather
  /\ (exists ev p, read_sofa_as_netcdf disk3 "w.nc" = (ev, Ok p)
        /\ pub p = [("GLOBAL_title", VStr false "rain"); ("GLOBAL_year", VScal (EInt 2001%Z));
                    ("t_max", VArr (Arr KI [2] [EInt 5%Z; EInt 6%Z] false)); ("t_max_unit", VStr false "K");
                    ("place", VStr true "Rom")])
  /\ (exists e, snd (read_sofa demo disk3 "w.nc" VAuto true) = Err e)
  /\ exists ev p ev' q, read_sofa demo disk3 "b" VNo true = (ev, Ok p)
       /\ read_sofa_as_netcdf disk3 "b" = (ev', Ok q) /\ dget "Words" (pub q) <> None.
Proof.
  split; [eexists; split; vm_compute; reflexivity|]. split; [apply file_wfb_ok; vm_compute; reflexivity|].
  split; [apply nodupb_ok; vm_compute; reflexivity|].
  split.
  { split; [|split].
    - intros a [<-|[<-|[]]]; apply smem_false; vm_compute; reflexivity.
    - intros n x [H|[H|[]]]; injection H as <- <-.
      + split; [discriminate|]. split; [intros a [<-|[]]; apply smem_false; vm_compute; reflexivity|].
        intros a [<-|[]] _. apply smem_false. vm_compute. reflexivity.
      + split; [|split; intros a []]. split; [exists [], 4; split; [reflexivity|discriminate]|].
        assert (F : forallb (fun c => nat_of_ascii c <? 128) (chars ("Rom" +++ nuls 1)) = true) by (vm_compute; reflexivity).
        rewrite forallb_forall in F. intros c I. apply Nat.ltb_lt. apply F. exact I.
    - intros k [<-|[<-|[<-|[<-|[<-|[]]]]]]; repeat split; vm_compute; try reflexivity; discriminate. }
  split; [eexists; eexists; split; vm_compute; reflexivity|].
  split; [eexists; vm_compute; reflexivity|].
  eexists; eexists; eexists; eexists. split; [vm_compute; reflexivity|]. split; [vm_compute; reflexivity|].
  vm_compute. discriminate.
Qed.

(** ** C36 *)
Lemma read_content_protects f o p ev cu : read_content f o = (p, ev, Ok cu) -> prot p = true.
Proof.
  unfold read_content. intro H.
  apply bind_Ok in H. destruct H as [o1 [e1 [u1 [e2 [_ [H _]]]]]].
  apply bind_Ok in H. destruct H as [o2 [e3 [n1 [e4 [_ [H _]]]]]].
  apply bind_Ok in H. destruct H as [o3 [e5 [n2 [e6 [_ [H _]]]]]].
  apply bind_Ok in H. destruct H as [o4 [e7 [n3 [e8 [_ [H _]]]]]].
  apply bind_Ok in H. destruct H as [o5 [e9 [n4 [e10 [_ [H _]]]]]].
  apply bind_Ok in H. destruct H as [o6 [e11 [n5 [e12 [H1 [H2 _]]]]]].
  inversion H1; subst. inversion H2; subst. reflexivity.
Qed.

Theorem C36_protected :
  forall E s name vo verbose ev p,
  (read_sofa E s name vo verbose = (ev, Ok p) \/ read_sofa_as_netcdf s name = (ev, Ok p)) -> prot p = true.
Proof.
  intros E s name vo verbose ev p [H|H].
  - apply read_pub in H. destruct H as [f [c [v [ev0 [o [q [ev1 [cu [_ [_ [_ [_ [RC [_ PP]]]]]]]]]]]]]].
    apply PP. eapply read_content_protects. exact RC.
  - apply read_netcdf_Ok in H. destruct H as [f [cu [_ RC]]]. eapply read_content_protects. exact RC.
Qed.
Print Assumptions C36_protected.

(** when does read_sofa verify *)
Definition verifies (vo : vopt) (v : string) : Prop :=
  match vo with VYes => True | VNo => False | VAuto => version_geb v "1.0" = Ok true end.

(** with verification the object is valid and another verification has the same
    result *)
Theorem C36_verified :
  forall E s name vo verbose ev p f v, db_ok E -> rules_tidy E ->
  file_at s name f -> file_wf f -> file_text f "SOFAConventionsVersion" = Ok v -> verifies vo v ->
  read_sofa E s name vo verbose = (ev, Ok p) ->
  valid E VRead p /\ m_obj (verify E HRaise VRead p) = p /\ is_ok (m_res (verify E HRaise VRead p)) = true.
Proof.
  intros E s name vo verbose ev p f v DB RT FA WF FT VE H. apply read_sofa_Ok in H.
  destruct H as [f' [c [v' [ev0 [o [q [ev1 [cu [FA' [_ [FT' [_ [SI [RC [ver [HV H6]]]]]]]]]]]]]]]].
  assert (f' = f) by (apply open_file_Ok in FA; apply open_file_Ok in FA'; congruence). subst f'.
  assert (v' = v) by congruence. subst v'.
  assert (ver = true) by (destruct vo; cbn in VE; [congruence|congruence|destruct VE]). subst ver.
  destruct H6 as [ev2 [r V]].
  assert (TW := verify_raise_twice E VRead q). rewrite V in TW. cbn [m_obj fst] in TW.
  assert (TW' : verify E HRaise VRead p = (p, ev2, Ok r)) by exact TW.
  split; [|rewrite TW'; split; reflexivity].
  apply verify_iff_valid; [exact DB|exact RT| |rewrite TW'; reflexivity].
  assert (DO := init_dicts _ _ _ _ _ _ _ SI).
  assert (DQ : dicts_ok q).
  { apply (read_content_dicts f o q ev1 cu WF DO RC). }
  assert (X := kdict_verify E HRaise VRead q DQ). rewrite V in X. exact X.
Qed.
Print Assumptions C36_verified.

Example C36_case :
  file_at disk3 "b" small_file /\ file_wf small_file
  /\ file_text small_file "SOFAConventionsVersion" = Ok "1.0" /\ verifies VAuto "1.0" /\ verifies VYes "1.0"
  /\ (exists ev, read_sofa demo disk3 "b" VAuto true = (ev, Err (Exn EValueError msg_not_verified)))
  /\ (let s := fst (write_sofa demo "a" demo_sofa disk) in
      exists ev p, read_sofa demo s "a" VYes true = (ev, Ok p) /\ file_wf (file_of s "a.sofa")
        /\ file_at s "a" (file_of s "a.sofa")).
Proof.
  split; [eexists; split; vm_compute; reflexivity|]. split; [apply file_wfb_ok; vm_compute; reflexivity|].
  split; [vm_compute; reflexivity|]. split; [vm_compute; reflexivity|]. split; [exact I|].
  split; [eexists; vm_compute; reflexivity|].
  intro s. eexists; eexists. split; [vm_compute; reflexivity|]. split; [apply file_wfb_ok; vm_compute; reflexivity|].
  eexists. split; vm_compute; reflexivity.
Qed.

(** ** C37 *)

(** The file addressed by [name] ends with ".sofa" and is addressed by its own
    name, too. Only the last name of the path is changed: the suffix is appended if it has
    no dot, and a name with a suffix ".sofa" is kept. Missing: any other suffix is replaced
    instead of kept, and the name ".sofa" is extended ([C37_refuted]). *)
Theorem C37_file_names_partial :
  forall name p, sofa_path name = Ok p ->
  (exists r, p = r +++ ".sofa") /\ sofa_path p = Ok p
  /\ (forall r l n, denotes name r (l ++ [n]) ->
        (forall b, b <> "" -> n = b +++ ".sofa" -> p = path_text r (l ++ [n]))
        /\ (has_char "." n = false -> p = path_text r (l ++ [n +++ ".sofa"]))
        /\ (forall b x, b <> "" -> x <> "" -> has_char "." x = false -> n = b +++ "." +++ x ->
              p = path_text r (l ++ [b +++ ".sofa"]))).
Proof.
  intros name p H. split; [|split].
  - apply sofa_path_Ok in H. destruct H as [r [l [n [_ ->]]]]. unfold path_text.
    exists (r +++ join "/" (l ++ [stem n])). rewrite sapp_assoc. f_equal. clear.
    induction l as [|c l IH]; [reflexivity|]. cbn [app].
    destruct (l ++ [stem n]) as [|x y] eqn:E1; [destruct l; discriminate E1|].
    destruct (l ++ [stem n +++ ".sofa"]) as [|x' y'] eqn:E2; [destruct l; discriminate E2|].
    change (join "/" (c :: x' :: y')) with (c +++ "/" +++ join "/" (x' :: y')).
    change (join "/" (c :: x :: y)) with (c +++ "/" +++ join "/" (x :: y)). rewrite IH, !sapp_assoc. reflexivity.
  - eapply sofa_path_idem. exact H.
  - intros r l n D. apply sofa_path_Ok in H. destruct H as [r' [l' [n' [D' ->]]]].
    destruct (denotes_unique _ _ _ _ _ D D') as [<- EQ]. apply app_inj_tail in EQ. destruct EQ as [<- <-].
    split; [|split].
    + intros b NE ->. rewrite stem_sofa by exact NE. reflexivity.
    + intro ND. rewrite stem_no_dot by exact ND. reflexivity.
    + intros b x NB NX ND ->. unfold stem. change (b +++ "." +++ x) with (b +++ String "." x).
      rewrite before_last_app, after_last_app by exact ND. rewrite (eqb_neq_s _ _ NB), (eqb_neq_s _ _ NX). reflexivity.
Qed.
Print Assumptions C37_file_names_partial.

(** different paths without suffix address different files *)
Theorem C37_different_partial :
  forall n m p r s k l a b, denotes n r (k ++ [a]) -> denotes m s (l ++ [b]) ->
  has_char "." a = false -> has_char "." b = false ->
  sofa_path n = Ok p -> sofa_path m = Ok p -> r = s /\ k = l /\ a = b.
Proof.
  intros n m p r s k l a b D1 D2 HA HB H1 H2.
  apply C37_file_names_partial in H1. destruct H1 as [_ [_ H1]]. destruct (H1 _ _ _ D1) as [_ [Q1 _]].
  apply C37_file_names_partial in H2. destruct H2 as [_ [_ H2]]. destruct (H2 _ _ _ D2) as [_ [Q2 _]].
  specialize (Q1 HA). specialize (Q2 HB).
  assert (G : forall n r k a, denotes n r (k ++ [a]) -> has_char "." a = false ->
    denotes (path_text r (k ++ [a +++ ".sofa"])) r (k ++ [a +++ ".sofa"])).
  { clear. intros n r k a D H. apply denotes_good in D. destruct D as [R G]. apply good_denotes; [exact R|].
    apply Forall_app in G. destruct G as [G1 G2]. apply Forall_app. split; [exact G1|].
    inversion G2 as [|x y C _]; subst. constructor; [|constructor]. apply stem_component in C. rewrite stem_no_dot in C by exact H. exact C. }
  assert (X := G _ _ _ _ D1 HA). assert (Y := G _ _ _ _ D2 HB). rewrite <- Q1 in X. rewrite <- Q2 in Y.
  destruct (denotes_unique _ _ _ _ _ X Y) as [-> EQ]. apply app_inj_tail in EQ. destruct EQ as [-> EQ].
  split; [reflexivity|]. split; [reflexivity|].
  apply (f_equal (drop_end (String.length ".sofa"))) in EQ.
  rewrite (drop_end_app a ".sofa"), (drop_end_app b ".sofa") in EQ. exact EQ.
Qed.
Print Assumptions C37_different_partial.

(** How a path is spelled does not matter: the same object is read, and the same file is
    written. Names without any component are rejected. *)
Theorem C37_spelling :
  forall n m r l, denotes n r l -> denotes m r l ->
  (forall E s v verbose, read_sofa E s n v verbose = read_sofa E s m v verbose)
  /\ (forall s, read_sofa_as_netcdf s n = read_sofa_as_netcdf s m)
  /\ (forall E o s, write_sofa E n o s = write_sofa E m o s).
Proof.
  intros n m r l D1 D2. assert (P : sofa_path n = sofa_path m).
  { apply denotes_iff in D1. apply denotes_iff in D2. destruct D1 as [R1 L1]. destruct D2 as [R2 L2].
    unfold sofa_path. rewrite <- R1, <- L1, <- R2, <- L2. reflexivity. }
  assert (O : forall s, open_file s n = open_file s m) by (intro s; unfold open_file; rewrite P; reflexivity).
  split; [|split].
  - intros E s v verbose. unfold read_sofa. rewrite O. reflexivity.
  - intro s. unfold read_sofa_as_netcdf. rewrite O. reflexivity.
  - intros E o s. unfold write_sofa, prepare_write. rewrite P. reflexivity.
Qed.
Print Assumptions C37_spelling.

Theorem C37_no_name :
  forall name r, denotes name r [] ->
  (forall E s v verbose, exists t, read_sofa E s name v verbose = ([], Err (Exn EValueError t)))
  /\ (forall E o s, exists t, write_sofa E name o s = (s, (o, [], Err (Exn EValueError t)))).
Proof.
  intros name r D. apply denotes_iff in D. destruct D as [_ D].
  assert (P : sofa_path name = Err (Exn EValueError "has an empty name")) by (unfold sofa_path; rewrite <- D; reflexivity).
  split.
  - intros E s v verbose. unfold read_sofa, open_file. rewrite P. eexists. reflexivity.
  - intros E o s. unfold write_sofa, prepare_write. rewrite P. eexists. reflexivity.
Qed.
Print Assumptions C37_no_name.

(** what has been written is read with the same name *)
Theorem C37_same_file :
  forall E name o s s' o' ev, write_sofa E name o s = (s', (o', ev, Ok tt)) ->
  exists p f, sofa_path name = Ok p /\ write_content E o' empty_file = (f, Ok tt)
    /\ file_at s' name f /\ file_at s' p f.
Proof.
  intros E name o s s' o' ev H. destruct (write_sofa_cases E name o s) as [[o1 [e1 [e Q]]]|[o1 [e1 [p [f [r [H1 [_ [H2 Q]]]]]]]]].
  - rewrite Q in H. discriminate.
  - rewrite Q in H. inversion H; subst. apply prepare_write_Ok in H1. destruct H1 as [H1 _].
    exists p, f. split; [exact H1|]. split; [exact H2|].
    split; exists p; split; auto; try (apply dget_dset_same). eapply sofa_path_idem. exact H1.
Qed.
Print Assumptions C37_same_file.

Theorem C37_refuted :
  (* "v1.2" and "v1.3" are the same file: the second write replaces the first *)
  sofa_path "v1.2" = Ok "v1.sofa" /\ sofa_path "v1.3" = Ok "v1.sofa"
  /\ (let s := fst (write_sofa demo "v1.2" demo_sofa disk) in
      let s' := fst (write_sofa demo "v1.3" (put "GLOBAL_Title" (VStr false "other") demo_sofa) s) in
      m_res (snd (write_sofa demo "v1.3" (put "GLOBAL_Title" (VStr false "other") demo_sofa) s)) = Ok tt
      /\ exists ev p, read_sofa demo s' "v1.2" VAuto true = (ev, Ok p)
           /\ dget "GLOBAL_Title" (pub demo_sofa) = Some (VStr false "")
           /\ dget "GLOBAL_Title" (pub p) = Some (VStr false "other"))
  (* a name ending with ".sofa" that is changed *)
  /\ sofa_path ".sofa" = Ok ".sofa.sofa".
Proof.
  split; [reflexivity|]. split; [reflexivity|]. split; [|reflexivity]. intros s s'.
  split; [vm_compute; reflexivity|]. eexists; eexists. split; [vm_compute; reflexivity|]. split; vm_compute; reflexivity.
Qed.
Print Assumptions C37_refuted.

Example C37_case :
  sofa_path "data/my.data/head" = Ok "data/my.data/head.sofa" /\ sofa_path "data/head.sofa" = Ok "data/head.sofa"
  /\ sofa_path "data/" = Ok "data.sofa" /\ sofa_path "/" = Err (Exn EValueError "has an empty name")
  /\ denotes "./d//a" "" ["d"; "a"] /\ denotes "d/a" "" ["d"; "a"] /\ denotes "//." "//" []
  /\ exists s' o' ev, write_sofa demo "d/a" demo_sofa disk = (s', (o', ev, Ok tt)).
Proof.
  split; [reflexivity|]. split; [reflexivity|]. split; [reflexivity|]. split; [reflexivity|].
  split; [apply denotes_iff; split; reflexivity|]. split; [apply denotes_iff; split; reflexivity|].
  split; [apply denotes_iff; split; reflexivity|]. do 3 eexists. vm_compute. reflexivity.
Qed.

(** ** C38 *)

(** Missing: texts ending with NUL, which are cut, and other than ASCII
    characters, for which writing raises UnicodeEncodeError ([C38_refuted]). *)
Theorem C38_fixed_width_partial :
  forall v key d n a texts, np_array v = Ok a -> a_data a = map EStr texts ->
  (forall t, In t texts -> String.length t <= n /\ (forall r, t <> r +++ nuls 1)
     /\ forall c, In c (chars t) -> nat_of_ascii c < 128) ->
  List.length texts = prod (a_shape a) ->
  exists s w t, format_for_netcdf v key "string" d n = Ok (s ++ [w], DChar t, true)
    /\ (n <> 0 -> w = n) /\ String.length t = prod (s ++ [w])
    /\ forall s', prod s' = prod s -> exists b, chartostring (s' ++ [w]) t = Ok b /\ a_shape b = s' /\ a_data b = a_data a.
Proof.
  intros v key d n a texts NA AD HT LT. unfold format_for_netcdf. cbn [String.eqb Ascii.eqb Bool.eqb].
  rewrite NA. cbn [rbind]. rewrite AD.
  assert (TB : rmap to_bytes (map EStr texts) = Ok texts).
  { clear NA AD LT. induction texts as [|t l IH]; [reflexivity|]. cbn [map rmap].
    rewrite IH by (intros x I; apply HT; right; exact I). destruct (HT t (or_introl eq_refl)) as [_ [T1 T2]].
    cbn [to_bytes]. replace (forallb is_ascii (chars t)) with true.
    - cbn [rbind]. rewrite strip_nul_id by exact T1. reflexivity.
    - symmetry. apply forallb_forall. intros c I. apply Nat.ltb_lt. apply T2. exact I. }
  rewrite TB. cbn [rbind].
  set (w := if n =? 0 then Nat.max 1 (max_list (map String.length texts)) else n).
  assert (WZ : w <> 0) by (unfold w; destruct (Nat.eqb_spec n 0); lia).
  assert (WN : n <> 0 -> w = n) by (unfold w; destruct (Nat.eqb_spec n 0); congruence).
  assert (TL : forall t, In t texts -> String.length t <= w).
  { intros t I. destruct (HT t I) as [H _]. unfold w. destruct (Nat.eqb_spec n 0); [|lia]. lia. }
  clearbody w.
  assert (PS : prod (sh_atleast_nd (a_shape a) (String.length d)) = List.length texts).
  { rewrite LT. apply prod_atleast_nd. }
  exists (sh_atleast_nd (a_shape a) (String.length d)), w, (sconcat (fixed_width w) texts).
  split; [reflexivity|]. split; [exact WN|]. split.
  - rewrite prod_app. cbn [prod fold_right]. rewrite PS. clear -TL. 
    rewrite Nat.mul_1_r. induction texts as [|t l IH]; [reflexivity|]. cbn [sconcat List.length].
    rewrite sapp_length, fixed_width_length by (apply TL; left; reflexivity). rewrite IH by (intros x I; apply TL; right; exact I). lia.
  - intros s' P'. rewrite chartostring_ok; [|exact WZ|].
    + eexists. split; [reflexivity|]. cbn [a_shape a_data]. split; [reflexivity|]. rewrite P', PS, pieces_fixed by exact TL.
      rewrite map_map. apply map_ext_in. intros t I. destruct (HT t I) as [_ [T1 _]]. rewrite strip_fixed by (apply TL; exact I).
      rewrite strip_nul_id by exact T1. reflexivity.
    + intros c I. apply chars_fixed in I; [|exact TL]. destruct I as [->|[t [T1 T2]]]; [cbn; lia|].
      destruct (HT t T1) as [_ [_ T3]]. apply T3. exact T2.
Qed.
Print Assumptions C38_fixed_width_partial.

(** the widest text determines the width *)
Example C38_case :
  let v := VArr (Arr KU [3] [EStr "four"; EStr ""; EStr "a b"] false) in
  exists t, format_for_netcdf v "Words" "string" "MS" 4 = Ok ([1; 3; 4], DChar t, true)
    /\ t = "four" +++ nuls 4 +++ "a b" +++ nuls 1
    /\ chartostring [3; 4] t = Ok (Arr KU [3] [EStr "four"; EStr ""; EStr "a b"] false).
Proof. intro v. eexists. repeat split; vm_compute; reflexivity. Qed.

Definition with_words (v : value) : sofa := put "SourceDescriptions" v demo_sofa.

Theorem C38_refuted :
  (* a NUL at the end is lost *)
  (let s := fst (write_sofa demo "a" (with_words (VStr false ("end" +++ nuls 1))) disk) in
   exists ev p, read_sofa demo s "a" VAuto true = (ev, Ok p)
     /\ dget "SourceDescriptions" (pub p) = Some (VStr true "end"))
  (* other than ASCII characters can not be written *)
  /\ (exists m, m_res (snd (write_sofa demo "a" (with_words (VStr false ("B" +++ str1 (ascii_of_nat 252) +++ "hne"))) disk))
                = Err (Exn EUnicodeError m)).
Proof.
  split.
  - intro s. eexists; eexists. split; vm_compute; reflexivity.
  - eexists. vm_compute. reflexivity.
Qed.
Print Assumptions C38_refuted.
