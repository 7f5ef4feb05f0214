(** C90: the argument verify of Sofa(...) and read_sofa. *)
From Verif Require Import Base PyStr PyNum NdArray Sofa Verify Upgrade Utils Io Demo
  SpecAttr SpecInit SpecVerify SpecReport
  BaseFacts StrFacts AttrFacts OpFacts InitFacts ProtFacts MissingFacts CoreFacts DimFacts ValidFacts VerifyFacts DictFacts IoFacts
  SpecIo ReadFacts DemoFacts BlindFacts LookFacts OptionFacts PropVerify PropIo PropRound.
From Coq Require Import ZArith.
Open Scope string_scope.
Open Scope list_scope.

Lemma verify_raise_pub' E m o : pub (m_obj (verify E HRaise m o)) = pub o.
Proof. exact (proj1 (verify_raise_pub (normative_keys E) E m o)). Qed.

(** ** New objects *)

(** With verify=False the object is returned and there is a warning exactly if the
    version starts with 0. With verify=True, and with verify="auto" unless the version
    starts with 0, the same object is returned if it is valid, otherwise the call
    raises. Objects with mandatory data only are not verified. *)
Theorem C90_new_objects :
  forall E c mandatory version ev0 o0, db_ok E -> rules_tidy E ->
  sofa_init E c mandatory version VNo = (ev0, Ok o0) ->
  exists b v, dget "GLOBAL_SOFAConventionsVersion" (pub o0) = Some (VStr b v)
  /\ ev0 = (if String.prefix "0" v then [EvWarn ("Detected preliminary conventions version " +++ v +++ ". "
                                                  +++ "Upgrade data to version >= 1.0 if possible. Preliminary conventions might change in the future, which could invalidate data that was written before the changes.")] else [])
  /\ forall vo,
     (~ verified_new vo v mandatory -> sofa_init E c mandatory version vo = (ev0, Ok o0))
     /\ (verified_new vo v mandatory -> valid E VRead o0 ->
         exists ev o, sofa_init E c mandatory version vo = (ev, Ok o) /\ twins o0 o)
     /\ (verified_new vo v mandatory -> ~ valid E VRead o0 ->
         exists ev e, sofa_init E c mandatory version vo = (ev, Err e)).
Proof.
  intros E c m version ev0 o0 DB RT H.
  destruct (init_options E c m version o0 ev0 DB H) as [b [v [Q [_ [_ [CU [HE [I1 I2]]]]]]]].
  exists b, v. split; [exact Q|]. split; [exact HE|]. intro vo. split; [apply I1|].
  assert (DO : dicts_ok o0) by exact (init_dicts _ _ _ _ _ _ _ H).
  assert (VI := verify_iff_valid E VRead o0 DB RT DO).
  assert (S := settled_init E c m version VNo ev0 o0 DB H).
  assert (R := rests_verify E (conv o0) HRaise VRead o0 DB S). unfold rests in R.
  split; intros V W; rewrite (I2 vo V); destruct (verify E HRaise VRead o0) as [[o' ev] [r|e]] eqn:VE; unfold m_res, m_obj in *; cbn [fst snd is_ok] in *.
  - exists ev, (with_prot o' true). split; [reflexivity|]. refine (twins_trans _ _ _ R _). split; try reflexivity. cbn [prot with_prot].
    rewrite (tw_prot _ _ R). symmetry. exact (se_prot _ _ _ S).
  - apply VI in W. discriminate W.
  - destruct W. apply VI. reflexivity.
  - exists ev, e. reflexivity.
Qed.
Print Assumptions C90_new_objects.

(** what can not be created without verification can not be created at all *)
Theorem C90_not_created :
  forall E c mandatory version ev0 e0, db_ok E -> sofa_init E c mandatory version VNo = (ev0, Err e0) ->
  forall vo, sofa_init E c mandatory version vo = (ev0, Err e0).
Proof. intros E c m version ev0 e0. exact (init_raises E c m version e0 ev0). Qed.
Print Assumptions C90_not_created.

(** ** Reading *)

(** what follows after the object was created *)
Definition after (E : env) (verbose ver : bool) (f : ncfile) : M unit :=
  do custom <- read_content f;
  do_ when (negb (match custom with [] => true | _ => false end) && verbose) (emit (EvPrint (custom_notice custom)));
  if ver then verify_read E else ret tt.

Lemma blind_verify_read E : blind (verify_read E).
Proof.
  intros o p T. destruct (blind_verify E HRaise VRead o p T) as [T1 [X Y]]. unfold verify_read.
  destruct (verify E HRaise VRead o) as [[o1 e1] r1]. destruct (verify E HRaise VRead p) as [[p1 e2] r2].
  unfold m_obj, m_out, m_res in *. cbn [fst snd] in *. subst. destruct r1; apply same_end_const; exact T1.
Qed.
Lemma blind_after E verbose ver f : blind (after E verbose ver f).
Proof.
  unfold after. apply blind_bind; [apply blind_content|intro cu]. apply blind_bind; [apply blind_when, blind_emit|intros _].
  destruct ver; [apply blind_verify_read|apply blind_ret].
Qed.
Lemma after_true E verbose f o p ev : after E verbose false f o = (p, ev, Ok tt) ->
  after E verbose true f o = match verify E HRaise VRead p with
    | (q, ev', Ok _) => (q, ev ++ ev', Ok tt) | (q, ev', Err _) => (q, ev ++ ev', Err (Exn EValueError msg_not_verified)) end.
Proof.
  unfold after, bind. destruct (read_content f o) as [[o1 e1] [cu|e]]; [|discriminate].
  destruct (when _ _ o1) as [[o2 e2] [[]|e]]; [|discriminate]. unfold ret. intro H. injection H as <- <-.
  unfold verify_read. destruct (verify E HRaise VRead o2) as [[q e3] [r|e]]; rewrite app_nil_r, app_assoc; reflexivity.
Qed.
Lemma after_fails E verbose f o p ev e : after E verbose false f o = (p, ev, Err e) -> after E verbose true f o = (p, ev, Err e).
Proof.
  unfold after, bind. destruct (read_content f o) as [[o1 e1] [cu|x]]; [|intro H; exact H].
  destruct (when _ _ o1) as [[o2 e2] [[]|x]]; [|intro H; exact H]. unfold ret. discriminate.
Qed.

Lemma read_eq E s name f c v : db_ok E -> file_at s name f -> file_text f "SOFAConventions" = Ok c ->
  file_text f "SOFAConventionsVersion" = Ok v -> forall vo verbose,
  read_sofa E s name vo verbose =
  match verify_convention_and_version E v c with
  | Err e => ([], Err e)
  | Ok _ => match sofa_init E c false v vo with
            | (ev, Err e) => (ev, Err e)
            | (ev, Ok o) => prepend ev (finished ((if String.prefix "0" v then after E verbose (match vo with VYes => true | _ => false end) f
                                                  else after E verbose (match vo with VNo => false | _ => true end) f) o))
            end
  end.
Proof.
  intros DB FA FC FV vo verbose. unfold read_sofa. apply open_file_Ok in FA. rewrite FA. cbn [rbind]. rewrite FC. cbn [rbind]. rewrite FV. cbn [rbind].
  destruct (verify_convention_and_version E v c) as [[]|e] eqn:VC; [|reflexivity]. cbn [rbind].
  destruct (sofa_init E c false v vo) as [ev [o|e]] eqn:SI; [|reflexivity]. f_equal. f_equal.
  assert (FS : float_str v = Some v).
  { destruct (load_convention E c v) as [cv|] eqn:L; [|unfold sofa_init in SI; rewrite L in SI; discriminate SI].
    destruct (load_version E c v cv DB L) as [b [v' [_ [FS [_ VV]]]]].
    rewrite <- (VV (verify_cv_number E c v VC DB)). exact FS. }
  assert (G := stable_iff v FS). unfold after.
  destruct (String.prefix "0" v); cbn [negb] in G; destruct vo; rewrite ?G; unfold bind; destruct (read_content f o) as [[o1 e1] [cu|e]]; try reflexivity;
    destruct (when _ _ o1) as [[o2 e2] [[]|e]]; try reflexivity; cbn [lift ret]; try reflexivity;
    destruct (verify_read E o2) as [[? ?] ?]; reflexivity.
Qed.

(** ** C90, reading *)

(** verify="auto" is verify=False for versions that start with 0, otherwise verify=True *)
Theorem C90_auto :
  forall E s name f c v verbose, db_ok E -> file_at s name f -> file_text f "SOFAConventions" = Ok c ->
  file_text f "SOFAConventionsVersion" = Ok v ->
  read_sofa E s name VAuto verbose = read_sofa E s name (if String.prefix "0" v then VNo else VYes) verbose.
Proof.
  intros E s name f c v verbose DB FA FC FV. assert (R := read_eq E s name f c v DB FA FC FV). rewrite !R.
  destruct (verify_convention_and_version E v c) as [[]|e] eqn:VC; [|reflexivity].
  assert (NL := verify_cv_number E c v VC DB).
  destruct (sofa_init E c false v VNo) as [ev0 [o0|e0]] eqn:SI.
  - destruct (init_options E c false v o0 ev0 DB SI) as [b [v' [_ [VV [_ [_ [_ [I1 I2]]]]]]]]. specialize (VV NL). subst v'.
    destruct (String.prefix "0" v) eqn:P.
    + rewrite (I1 VAuto), SI; [reflexivity|]. intros [_ [H|[_ H]]]; [discriminate H|congruence].
    + rewrite (I2 VAuto), (I2 VYes); [reflexivity| |]; split; auto.
  - rewrite (init_raises E c false v e0 ev0 DB SI VAuto). destruct (String.prefix "0" v); rewrite (init_raises E c false v e0 ev0 DB SI); reflexivity.
Qed.
Print Assumptions C90_auto.

(** If the default data of the convention are valid: with verify=True the file is
    read exactly if it can be read with verify=False and the object is valid; the data
    are the same. Otherwise the call raises a ValueError. Missing: default data that are
    not valid, [C90_refuted]. *)
Theorem C90_read_partial :
  forall E s name f c v verbose d evd, db_ok E -> rules_tidy E -> file_at s name f -> file_wf f ->
  file_text f "SOFAConventions" = Ok c -> file_text f "SOFAConventionsVersion" = Ok v ->
  sofa_init E c false v VNo = (evd, Ok d) -> valid E VRead d ->
  match read_sofa E s name VNo verbose with
  | (ev0, Ok p0) =>
      (valid E VRead p0 -> exists ev p, read_sofa E s name VYes verbose = (ev, Ok p) /\ pub p = pub p0)
      /\ (~ valid E VRead p0 -> exists ev, read_sofa E s name VYes verbose = (ev, Err (Exn EValueError msg_not_verified)))
  | (_, Err e) => snd (read_sofa E s name VYes verbose) = Err e
  end.
Proof.
  intros E s name f c v verbose d evd DB RT FA WF FC FV SI VD.
  assert (R := read_eq E s name f c v DB FA FC FV). rewrite !R.
  destruct (verify_convention_and_version E v c) as [[]|e] eqn:VC; [|reflexivity].
  rewrite SI. destruct (C90_new_objects E c false v evd d DB RT SI) as [b [v' [_ [_ I]]]].
  destruct (I VYes) as [_ [I2 _]]. destruct (I2 ltac:(split; auto) VD) as [evy [dy [SY T]]]. rewrite SY.
  match goal with |- context [prepend evd (finished (?x d))] => replace (x d) with (after E verbose false f d) by (destruct (String.prefix "0" v); reflexivity) end.
  match goal with |- context [prepend evy (finished (?x dy))] => replace (x dy) with (after E verbose true f dy) by (destruct (String.prefix "0" v); reflexivity) end.
  destruct (blind_after E verbose true f d dy T) as [T1 [X Y]].
  destruct (after E verbose false f d) as [[p0 ev0] [[]|e]] eqn:A0.
  - rewrite (after_true E verbose f d p0 ev0 A0) in *.
    assert (DP : dicts_ok p0).
    { unfold after in A0. apply bind_Ok in A0. destruct A0 as [q [e1 [cu [e2 [A1 [A2 _]]]]]].
      apply bind_Ok in A2. destruct A2 as [q2 [e3 [u2 [e4 [A2 [A3 _]]]]]]. unfold ret in A3. injection A3 as <- _.
      assert (q2 = q) by (destruct (_ && _); cbn in A2; injection A2; congruence). subst q2.
      exact (read_content_dicts f d q e1 cu WF (init_dicts _ _ _ _ _ _ _ SI) A1). }
    assert (VI := verify_iff_valid E VRead p0 DB RT DP).
    assert (PP := verify_raise_pub' E VRead p0).
    destruct (after E verbose true f dy) as [[q e1] r1]. unfold m_obj, m_out, m_res in *. unfold prepend, finished. cbn [fst snd] in *.
    destruct (verify E HRaise VRead p0) as [[p1 e3] [r|e]]; cbn [fst snd is_ok] in *; subst r1 e1.
    + split; [|intro N; destruct N; apply VI; reflexivity]. intros _. eexists. exists q. split; [reflexivity|]. rewrite (tw_pub _ _ T1). exact PP.
    + split; [intro W; apply VI in W; discriminate W|]. intros _. eexists. reflexivity.
  - rewrite (after_fails E verbose f d p0 ev0 e A0) in *. unfold prepend, finished. cbn [fst snd].
    destruct (after E verbose true f dy) as [[q e1] r1]. unfold m_obj, m_out, m_res in *. cbn [fst snd] in *. subst r1. reflexivity.
Qed.
Print Assumptions C90_read_partial.

(** the default data have to be valid *)
Theorem C90_default_needed :
  forall E s name f c v verbose d evd, db_ok E -> rules_tidy E -> file_at s name f ->
  file_text f "SOFAConventions" = Ok c -> file_text f "SOFAConventionsVersion" = Ok v ->
  sofa_init E c false v VNo = (evd, Ok d) -> ~ valid E VRead d ->
  is_ok (snd (read_sofa E s name VYes verbose)) = false.
Proof.
  intros E s name f c v verbose d evd DB RT FA FC FV SI VD. rewrite (read_eq E s name f c v DB FA FC FV).
  destruct (verify_convention_and_version E v c) as [[]|e] eqn:VC; [|reflexivity].
  destruct (C90_new_objects E c false v evd d DB RT SI) as [b [v' [_ [_ I]]]].
  destruct (I VYes) as [_ [_ I3]]. destruct (I3 ltac:(split; auto) VD) as [ev [e SY]]. rewrite SY. reflexivity.
Qed.
Print Assumptions C90_default_needed.

(** ** Examples *)
(** an old version with default data that are not valid *)
Definition sloppy : env :=
  Env [("SimpleFreeFieldHRIR_1.0.json", hrir "1.0");
       ("SimpleFreeFieldHRIR_0.4.json", dset "ListenerPosition:Type" (attr mo "polar") (hrir "0.4"))]
      demo_rules demo_aliases [] [] (fun _ => "?") (fun _ => "<class>") "2024-01-01 00:00:00" "sofar v1.2.2" "3.11".
Lemma sloppy_db_ok : db_ok sloppy.
Proof.
  split.
  - repeat constructor; cbn; intuition discriminate.
  - intros f [<-|[<-|[]]].
    + exists "SimpleFreeFieldHRIR", "1.0". repeat split; try reflexivity; try discriminate.
      * vm_compute. intuition discriminate.
      * do 2 eexists. repeat split; reflexivity.
      * do 2 eexists. repeat split; reflexivity.
    + exists "SimpleFreeFieldHRIR", "0.4". repeat split; try reflexivity; try discriminate.
      * vm_compute. intuition discriminate.
      * do 2 eexists. repeat split; reflexivity.
      * do 2 eexists. repeat split; reflexivity.
Qed.
Lemma sloppy_rules_tidy : rules_tidy sloppy. Proof. exact demo_rules_tidy. Qed.
Definition created_with (E : env) (version : string) : sofa :=
  match snd (sofa_init E "SimpleFreeFieldHRIR" false version VNo) with Ok o => o | Err _ => empty_sofa end.
(** a valid object of the old version, and its file *)
Definition corrected : sofa := m_obj (set_attr "ListenerPosition_Type" (VStr false "cartesian") (created_with sloppy "0.4")).
Definition corrected_files : fs := fst (write_sofa sloppy "a.sofa" corrected (Fs [] (fun _ => true))).
Definition corrected_file : ncfile := match dget "a.sofa" (fs_files corrected_files) with Some (Some f) => f | _ => empty_file end.

(** a valid file that can be read with verify=False but not with verify=True *)
Theorem C90_refuted :
  ~ (forall E s name f ev p, db_ok E -> rules_tidy E -> file_at s name f -> file_wf f ->
     read_sofa E s name VNo false = (ev, Ok p) -> valid E VRead p -> is_ok (snd (read_sofa E s name VYes false)) = true).
Proof.
  intro H. destruct (read_sofa sloppy corrected_files "a.sofa" VNo false) as [ev [p|e]] eqn:R; [|vm_compute in R; discriminate R].
  assert (V : is_ok (m_res (verify sloppy HRaise VRead p)) = true).
  { assert (X : match snd (read_sofa sloppy corrected_files "a.sofa" VNo false) with Ok p => is_ok (m_res (verify sloppy HRaise VRead p)) | _ => false end = true)
      by (vm_compute; reflexivity). rewrite R in X. exact X. }
  assert (WF : file_wf corrected_file) by (apply file_wfb_ok; vm_compute; reflexivity).
  assert (FA : file_at corrected_files "a.sofa" corrected_file) by (exists "a.sofa"; split; vm_compute; reflexivity).
  assert (F : is_ok (snd (read_sofa sloppy corrected_files "a.sofa" VYes false)) = false) by (vm_compute; reflexivity).
  rewrite (H sloppy corrected_files "a.sofa" corrected_file ev p sloppy_db_ok sloppy_rules_tidy FA WF R) in F; [discriminate F|].
  apply verify_iff_valid; [exact sloppy_db_ok|exact sloppy_rules_tidy| |exact V].
  assert (RO := R). apply read_sofa_Ok in RO. destruct RO as [f' [c [v' [ev0 [o [q [ev1 [cu [FA' [_ [_ [_ [SI [RC [ver [HV H6]]]]]]]]]]]]]]]].
  assert (f' = corrected_file) by (apply open_file_Ok in FA; apply open_file_Ok in FA'; congruence). subst f'.
  injection HV as <-. subst q. exact (read_content_dicts corrected_file o p ev1 cu WF (init_dicts _ _ _ _ _ _ _ SI) RC).
Qed.
Print Assumptions C90_refuted.

(** the other theorems with the demo conventions: a file with the current version is
    verified, the same file with a wrong type is not read, and new objects of
    version 0.4 are not verified *)
Definition good_files : fs := fst (write_sofa demo "a.sofa" demo_sofa (Fs [] (fun _ => true))).
Definition good_file : ncfile := match dget "a.sofa" (fs_files good_files) with Some (Some f) => f | _ => empty_file end.
Definition bad_file : ncfile :=
  NcFile (nf_dims good_file) (dset "DataType" (VStr false "unknown") (nf_attrs good_file)) (nf_vars good_file).
Definition bad_files : fs := Fs [("a.sofa", Some bad_file)] (fun _ => true).

Example C90_case :
  file_at good_files "a.sofa" good_file /\ file_wf good_file /\ file_wf bad_file /\ file_at bad_files "a.sofa" bad_file
  /\ sofa_init demo "SimpleFreeFieldHRIR" false "1.0" VNo = ([], Ok (created_with demo "1.0"))
  /\ valid demo VRead (created_with demo "1.0")
  /\ file_text bad_file "SOFAConventions" = Ok "SimpleFreeFieldHRIR" /\ file_text bad_file "SOFAConventionsVersion" = Ok "1.0"
  /\ is_ok (snd (read_sofa demo good_files "a.sofa" VYes false)) = true
  /\ is_ok (snd (read_sofa demo bad_files "a.sofa" VNo false)) = true
  /\ snd (read_sofa demo bad_files "a.sofa" VAuto false) = Err (Exn EValueError msg_not_verified)
  /\ fst (sofa_init demo "SimpleFreeFieldHRIR" false "0.4" VAuto) = [EvWarn (msg_preliminary "0.4")]
  /\ is_ok (snd (sofa_init sloppy "SimpleFreeFieldHRIR" false "0.4" VAuto)) = true
  /\ is_ok (snd (sofa_init sloppy "SimpleFreeFieldHRIR" false "0.4" VYes)) = false.
Proof.
  assert (V : is_ok (m_res (verify demo HRaise VRead (created_with demo "1.0"))) = true) by (vm_compute; reflexivity).
  assert (DO : dicts_ok (created_with demo "1.0")) by (apply dicts_check; vm_compute; reflexivity).
  assert (VD := proj1 (verify_iff_valid demo VRead _ demo_db_ok demo_rules_tidy DO) V).
  split; [exists "a.sofa"; split; vm_compute; reflexivity|]. split; [apply file_wfb_ok; vm_compute; reflexivity|].
  split; [apply file_wfb_ok; vm_compute; reflexivity|]. split; [exists "a.sofa"; split; vm_compute; reflexivity|].
  split; [vm_compute; reflexivity|]. split; [exact VD|].
  repeat (split; [vm_compute; reflexivity|]). vm_compute. reflexivity.
Qed.
