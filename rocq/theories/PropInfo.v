(** Printed information (C56, C57). *)
From Verif Require Import Base PyStr PyNum NdArray Sofa Verify Demo SpecInit SpecValue SpecVerify SpecAttr SpecUpgrade SpecInfo
  BaseFacts CoreFacts AttrFacts OpFacts InitFacts ValidFacts DictFacts VerifyFacts IssueFacts DimFacts RoundFacts DemoFacts PropVerify PropRound.
From Coq Require Import Permutation ZArith.
Open Scope Z_scope.
Open Scope nat_scope.
Open Scope string_scope.
Open Scope list_scope.

Lemma rconcat_rows {A} (f : A -> res string) l : forall t, rconcat f l = Ok t ->
  exists rows, t = sconcat (fun r => r) rows /\ Forall2 (fun x r => f x = Ok r) l rows.
Proof.
  induction l as [|x l IH]; intros t H; cbn [rconcat] in H.
  - injection H as <-. exists []. split; [reflexivity|constructor].
  - destruct (f x) as [a|e] eqn:FX; [|discriminate H]. cbn [rbind] in H.
    destruct (rconcat f l) as [b|e] eqn:RC; [|discriminate H]. cbn [rbind] in H. injection H as <-.
    destruct (IH b eq_refl) as [rows [-> R]]. exists (a :: rows). split; [reflexivity|constructor; assumption].
Qed.

Lemma rconcat_ok {A} (f : A -> res string) l : (forall x, In x l -> exists t, f x = Ok t) -> exists t, rconcat f l = Ok t.
Proof.
  induction l as [|x l IH]; intro H; cbn [rconcat]; [eexists; reflexivity|].
  destruct (H x (or_introl eq_refl)) as [t ->]. destruct IH as [u ->]; [intros y I; apply H; right; exact I|].
  eexists. reflexivity.
Qed.

Lemma inspect_row E o k v t : inspect_entry E o (k, v) = Ok t -> exists rest, t = k +++ " : " +++ rest.
Proof.
  unfold inspect_entry. destruct (dgetE k (conv o)) as [e|]; [|discriminate]. cbn [rbind].
  destruct (if String.eqb (e_type e) "attribute" then _ else _) as [[|]|]; cbn [rbind]; [| |discriminate].
  - intro H. injection H as <-. eexists. reflexivity.
  - destruct v; try discriminate. destruct (dims o) as [ds|]; [|discriminate].
    destruct (dgetE k ds) as [d|]; [|discriminate]. cbn [rbind]. intro H. injection H as <-. eexists. reflexivity.
Qed.

Lemma verify_keeps E h m o : forall k v, dget k (pub o) = Some v -> dget k (pub (m_obj (verify E h m o))) = Some v.
Proof.
  intros k v G. destruct (verify_settles E h m o) as [X|[o1 [R X]]]; [apply (gr_pub _ _ X), G|].
  apply (gr_pub _ _ X). destruct (reset_convention_cases E o) as [[e RE]|[c [b [w [cv [_ [_ [_ [_ RE]]]]]]]]]; rewrite R in RE; [discriminate RE|].
  injection RE as ->. destruct (custom o); exact G.
Qed.

(** ** C56: inspect works on every object *)

(** Missing for the full claim: inspect must not raise, see [C56_refuted] and
    [C56_invalid_refuted]. *)
Theorem C56_listing_partial : forall E h o o' ev, dicts_ok o ->
  inspect E h o = (o', ev, Ok tt) ->
  exists before text, ev = before ++ [EvPrint text] /\ lists text (dkeys (pub o')) /\
    NoDup (dkeys (pub o')) /\
    (* no attribute of the object is missing, and its value is unchanged *)
    forall k v, dget k (pub o) = Some v -> dget k (pub o') = Some v.
Proof.
  intros E h o o' ev DO H. unfold inspect in H.
  apply bind_Ok in H. destruct H as [o1 [e1 [r [e2 [HV [H ->]]]]]]. rewrite bind_get in H.
  apply bind_Ok in H. destruct H as [o2 [e3 [hd [e4 [HL [H ->]]]]]].
  unfold lift in HL. destruct (header E o1) as [hd'|x]; [|discriminate HL]. injection HL as <- <- ->.
  apply bind_Ok in H. destruct H as [o2 [e5 [txt [e6 [HL [H ->]]]]]].
  unfold lift in HL. destruct (rconcat (inspect_entry E o1) (pub o1)) as [t|x] eqn:RC; [|discriminate HL]. injection HL as <- <- ->.
  unfold emit in H. injection H as <- <-.
  destruct (rconcat_rows _ _ _ RC) as [rows [-> R]].
  exists e1. eexists. split; [cbn [app]; reflexivity|]. split; [|split].
  - exists (hd +++ sconcat (fun _ => "-") (chars hd) +++ nl), rows. split; [rewrite !sapp_assoc; reflexivity|].
    unfold dkeys. clear -R. induction R as [|[k v] r l rows RW R IH]; cbn [map]; constructor; [|exact IH].
    apply (inspect_row E o1 k v r RW).
  - assert (X := kdict_verify E h VWrite o DO). rewrite HV in X. apply X.
  - intros k v G. assert (X := verify_keeps E h VWrite o k v G). rewrite HV in X. exact X.
Qed.
Print Assumptions C56_listing_partial.

Lemma in_variables cv o k e dd : In k (dkeys (pub o)) -> declared cv o k = Some e -> e_dims e = Some dd -> In k (variables cv o).
Proof.
  intros I D ED. unfold variables. apply in_or_app. left. apply filter_In. split; [exact I|]. rewrite D, ED. reflexivity.
Qed.

Lemma getattr_pub o k v : dget k (pub o) = Some v -> getattr o k = Ok v.
Proof. unfold getattr. intros ->. reflexivity. Qed.

(** Objects that pass the verification can be inspected if the string
    variables are arrays or numpy strings (and the convention declares
    dimensions for all variables) *)
Theorem C56_valid_partial : forall E h o o1 ev1 r cv, db_ok E -> dicts_ok o -> h <> HIgnore ->
  verify E HRaise VWrite o = (o1, ev1, Ok r) -> convention_of E o cv ->
  (forall k e, declared cv o k = Some e -> e_type e <> "attribute" -> e_dims e <> None) ->
  (forall k e s, declared cv o k = Some e -> e_type e <> "attribute" -> dget k (pub o) <> Some (VStr false s)) ->
  dget "GLOBAL_Version" (pub o) <> None ->
  exists o' ev, inspect E h o = (o', ev, Ok tt) /\ pub o' = pub o.
Proof.
  intros E h o o1 ev1 r cv DB DO NI H CO HD HS HV.
  destruct (verify_verified E VWrite o o1 ev1 r DB DO H) as [cv' [a [ds V]]].
  assert (cv' = cv) by (eapply convention_unique; [exact DB|exact CO|apply (vd_cv _ _ _ _ _ _ V)]). subst cv'.
  destruct (raise_ok_core _ _ _ _ _ _ H) as [o0 [_ [_ [_ [_ [R [M _]]]]]]].
  assert (C := complete_dec E o o0 DB DO R M).
  destruct (verify_complete E VWrite o DB DO C) as [t [HT _]].
  assert (HR := HT HRaise). rewrite H in HR. specialize (HR ltac:(discriminate)).
  assert (VH : exists ev r', verify E h VWrite o = (o1, ev, Ok r')).
  { rewrite (HT h NI). destruct t as [[o' e'] [[e w]|x]]; cbn [outcome] in HR |- *; [|discriminate HR].
    unfold answer in HR. destruct (String.eqb_spec e "") as [->|N].
    - injection HR as -> _ _. exists (e' ++ told h w ""), None. unfold answer. rewrite String.eqb_refl. destruct h; reflexivity.
    - discriminate HR. }
  destruct VH as [ev [r' VH]]. unfold inspect. rewrite (bind_does _ _ _ _ _ _ VH), bind_get.
  destruct CO as [b [c [w [content [G1 [G2 _]]]]]].
  destruct (dget "GLOBAL_Version" (pub o)) as [gv|] eqn:G3; [|destruct (HV eq_refl)].
  assert (HDR : exists hd, header E o1 = Ok hd).
  { unfold header. rewrite <- (vd_pub _ _ _ _ _ _ V) in G1, G2, G3.
    rewrite (getattr_pub _ _ _ G1), (getattr_pub _ _ _ G2), (getattr_pub _ _ _ G3). eexists. reflexivity. }
  destruct HDR as [hd ->]. rewrite bind_lift.
  assert (TXT : exists txt, rconcat (inspect_entry E o1) (pub o1) = Ok txt).
  { apply rconcat_ok. intros [k v] I.
    assert (GP : dget k (pub o) = Some v) by (apply In_dget; [apply (vd_nodup _ _ _ _ _ _ V)|rewrite <- (vd_pub _ _ _ _ _ _ V); exact I]).
    destruct (vd_type _ _ _ _ _ _ V k v GP) as [e [D T]].
    unfold inspect_entry. unfold dgetE at 1. rewrite (vd_conv _ _ _ _ _ _ V k), D. cbn [rbind].
    destruct (String.eqb_spec (e_type e) "attribute") as [EA|NA]; cbn [rbind]; [eexists; reflexivity|].
    assert (KI : In k (dkeys (pub o))) by (apply dget_Some_In; eauto).
    destruct (e_dims e) as [dd|] eqn:ED; [|destruct (HD k e D NA ED)].
    destruct (vd_shape _ _ _ _ _ _ V k (in_variables cv o k e dd KI D ED)) as [_ [_ [_ [_ [alt [_ [_ [_ [_ [_ [DS _]]]]]]]]]]].
    rewrite (vd_dims _ _ _ _ _ _ V). unfold dgetE. rewrite DS.
    destruct T as [[TA _]|[[_ [[z ->]|[[f ->]|[x [-> _]]]]]|[_ [[[|] [s ->]]|[x [-> _]]]]]];
      try (exfalso; apply (HS k e s D NA GP)); try (destruct (NA TA)); cbn [value_size rbind Nat.eqb]; try (eexists; reflexivity);
      (destruct (Nat.eqb (a_size x) 1); eexists; reflexivity). }
  destruct TXT as [txt ->]. rewrite bind_lift. unfold emit. eexists _, _. split; [reflexivity|]. apply (vd_pub _ _ _ _ _ _ V).
Qed.
Print Assumptions C56_valid_partial.

(** ** Examples *)
Lemma declared_in cv o k e : custom o = None -> declared cv o k = Some e -> In (k, e) cv.
Proof.
  intros C. unfold declared, own_custom. rewrite C. destruct (dget k cv) as [x|] eqn:G; [|discriminate].
  intro H. injection H as <-. apply dget_In, G.
Qed.
Definition dims_declared (cv : convention) : bool :=
  forallb (fun ke => String.eqb (e_type (snd ke)) "attribute" || match e_dims (snd ke) with Some _ => true | None => false end) cv.
Definition no_plain (cv : convention) (o : sofa) : bool :=
  forallb (fun ke => String.eqb (e_type (snd ke)) "attribute"
                     || match dget (fst ke) (pub o) with Some (VStr false _) => false | _ => true end) cv.

(** the demo object meets the hypotheses of [C56_valid_partial] and is listed *)
Example C56_case :
  db_ok demo /\ dicts_ok demo_sofa /\ convention_of demo demo_sofa cv10 /\
  verify demo HRaise VWrite demo_sofa = (m_obj (verify demo HRaise VWrite demo_sofa), [], Ok None) /\
  (forall k e, declared cv10 demo_sofa k = Some e -> e_type e <> "attribute" -> e_dims e <> None) /\
  (forall k e s, declared cv10 demo_sofa k = Some e -> e_type e <> "attribute" -> dget k (pub demo_sofa) <> Some (VStr false s)) /\
  dget "GLOBAL_Version" (pub demo_sofa) <> None /\
  m_res (inspect demo HPrint demo_sofa) = Ok tt.
Proof.
  assert (C : custom demo_sofa = None) by (vm_compute; reflexivity).
  split; [exact demo_db_ok|]. split; [apply dicts_check; vm_compute; reflexivity|]. split; [apply in_hrir_ok; vm_compute; reflexivity|].
  split; [vm_compute; reflexivity|]. split; [|split; [|split]].
  - intros k e D NA. apply (declared_in _ _ _ _ C) in D.
    assert (X : dims_declared cv10 = true) by (vm_compute; reflexivity). unfold dims_declared in X. rewrite forallb_forall in X.
    specialize (X _ D). cbn [snd] in X. rewrite (eqb_neq_s _ _ NA) in X. destruct (e_dims e); [discriminate|discriminate X].
  - intros k e s D NA G. apply (declared_in _ _ _ _ C) in D.
    assert (X : no_plain cv10 demo_sofa = true) by (vm_compute; reflexivity). unfold no_plain in X. rewrite forallb_forall in X.
    specialize (X _ D). cbn [fst snd] in X. rewrite (eqb_neq_s _ _ NA), G in X. discriminate X.
  - assert (X : dmem "GLOBAL_Version" (pub demo_sofa) = true) by (vm_compute; reflexivity). unfold dmem in X.
    destruct (dget "GLOBAL_Version" (pub demo_sofa)); [discriminate|discriminate X].
  - vm_compute. reflexivity.
Qed.

(** A string variable that was assigned as [sofa.SourceDescriptions = "abc"]:
    the object is valid, inspect raises an AttributeError. *)
Theorem C56_refuted :
  let o := put "SourceDescriptions" (VStr false "abc") demo_sofa in
  m_res (verify demo HRaise VWrite o) = Ok None /\
  m_res (inspect demo HPrint o) = Err (Exn EAttributeError "size").
Proof. split; vm_compute; reflexivity. Qed.
Print Assumptions C56_refuted.

(** A variable of wrong shape: the verification prints the issue, then inspect
    raises a KeyError with the default handling of issues. *)
Theorem C56_invalid_refuted :
  let o := put "ListenerPosition" (VArr (Arr KI [2; 2] [EInt 0%Z; EInt 0%Z; EInt 0%Z; EInt 0%Z] false)) demo_sofa in
  m_res (inspect demo HPrint o) = Err (Exn EKeyError "ListenerPosition").
Proof. vm_compute. reflexivity. Qed.
Print Assumptions C56_invalid_refuted.

(** ** C57: info partitions the entries *)
Lemma skip_selected what o k e : dget k (conv o) = Some e ->
  In what ["all"; "mandatory"; "optional"; "read only"; "data"] -> info_skip what e = negb (selected what (conv o) k).
Proof.
  intros G I. unfold info_skip, selected, marked_mandatory, marked_read_only, is_attribute, flag_of, is_mandatory, is_read_only, flag_in.
  rewrite G. cbn [In] in I.
  repeat (destruct I as [<-|I]; [cbn [String.eqb Ascii.eqb Bool.eqb];
    destruct (e_flags e); repeat match goal with |- context[has_char ?c ?s] => destruct (has_char c s) end;
    destruct (String.eqb (e_type e) "attribute"); reflexivity|]). destruct I.
Qed.

Lemma info_row what o k e : dget k (conv o) = Some e -> info_skip what e = false -> row_of (conv o) k (info_entry what k e).
Proof.
  intros G S. unfold info_entry, row_of. rewrite S. exists e. split; [exact G|].
  unfold marked_mandatory, marked_read_only, flag_of. rewrite G. unfold is_mandatory, is_read_only, flag_in.
  assert (X : match e_dims e with Some d => if String.eqb d "" then "" else " (" +++ upper d +++ ")" | None => "" end = shape_note (e_dims e))
    by (destruct (e_dims e) as [[|c d]|]; reflexivity).
  assert (Y : match e_comment e with Some c => if String.eqb c "" then nl else nl +++ "    " +++ c +++ nl | None => nl end = comment_note (e_comment e))
    by (destruct (e_comment e) as [[|c d]|]; reflexivity).
  rewrite X, Y. destruct (e_flags e); reflexivity.
Qed.

Lemma info_rows what o ks : In what ["all"; "mandatory"; "optional"; "read only"; "data"] ->
  (forall k, In k ks -> dget k (conv o) <> None) ->
  exists rows, rconcat (fun k => let? e := dgetE k (conv o) in Ok (info_entry what k e)) ks = Ok (sconcat (fun r => r) rows)
    /\ Forall2 (row_of (conv o)) (filter (selected what (conv o)) ks) rows.
Proof.
  intro W. induction ks as [|k ks IH]; intro H; cbn [rconcat filter]; [exists []; split; [reflexivity|constructor]|].
  destruct IH as [rows [R1 R2]]; [intros y I; apply H; right; exact I|]. rewrite R1. unfold dgetE.
  destruct (dget k (conv o)) as [e|] eqn:G; [|destruct (H k (or_introl eq_refl) G)]. cbn [rbind].
  assert (S := skip_selected what o k e G W).
  destruct (selected what (conv o) k); cbn [negb] in S.
  - exists (info_entry what k e :: rows). split; [reflexivity|]. constructor; [apply info_row; assumption|exact R2].
  - exists rows. split; [|exact R2]. unfold info_entry. rewrite S. reflexivity.
Qed.

(** Missing for the full claim: info raises a KeyError for attributes without
    entry, see [C57_refuted]. *)
Theorem C57_info_partial : forall E what o, In what ["all"; "mandatory"; "optional"; "read only"; "data"] ->
  (forall k, In k (dkeys (pub o)) -> dget k (conv o) <> None) ->
  (forall k, In k ["GLOBAL_SOFAConventions"; "GLOBAL_SOFAConventionsVersion"; "GLOBAL_Version"] -> In k (dkeys (pub o))) ->
  exists w title rows,
    info E what o = (o, [EvWarn w; EvPrint (title +++ "showing " +++ what +++ " entries : type (shape), flags" +++ nl +++ nl
                                            +++ sconcat (fun r => r) rows)], Ok tt)
    /\ Forall2 (row_of (conv o)) (filter (selected what (conv o)) (dkeys (pub o))) rows.
Proof.
  intros E what o W HC HH. destruct (info_rows what o (dkeys (pub o)) W HC) as [rows [R1 R2]].
  assert (X : exists hd, header E o = Ok hd).
  { unfold header.
    destruct (proj2 (dget_Some_In _ _) (HH _ (or_introl eq_refl))) as [v1 G1].
    destruct (proj2 (dget_Some_In _ _) (HH _ (or_intror (or_introl eq_refl)))) as [v2 G2].
    destruct (proj2 (dget_Some_In _ _) (HH _ (or_intror (or_intror (or_introl eq_refl))))) as [v3 G3].
    rewrite (getattr_pub _ _ _ G1), (getattr_pub _ _ _ G2), (getattr_pub _ _ _ G3). eexists. reflexivity. }
  destruct X as [hd HD]. unfold info. eexists _, _, rows. split; [|exact R2].
  unfold emit at 1, bind at 1. cbn [fst snd]. rewrite bind_get, HD, bind_lift.
  assert (M : smem what ["all"; "mandatory"; "optional"; "read only"; "data"] = true) by (apply smem_In; exact W).
  rewrite M, R1, bind_lift. reflexivity.
Qed.
Print Assumptions C57_info_partial.

(** every entry is selected by exactly one of 'mandatory' and 'optional', and by 'all' *)
Theorem C57_partition_partial : forall c ks,
  filter (selected "all" c) ks = ks /\
  (forall k, In k ks -> (In k (filter (selected "mandatory" c) ks) /\ ~ In k (filter (selected "optional" c) ks))
                       \/ (In k (filter (selected "optional" c) ks) /\ ~ In k (filter (selected "mandatory" c) ks))) /\
  Permutation ks (filter (selected "mandatory" c) ks ++ filter (selected "optional" c) ks).
Proof.
  intros c ks. split; [|split].
  - induction ks as [|k ks IH]; [reflexivity|]. cbn [filter]. cbn [selected String.eqb Ascii.eqb Bool.eqb]. f_equal. exact IH.
  - intros k I. destruct (marked_mandatory c k) eqn:M; [left|right]; split;
      try (apply filter_In; split; [exact I|]); try (intro H; apply filter_In in H; destruct H as [_ H]; revert H);
      cbn [selected String.eqb Ascii.eqb Bool.eqb]; rewrite M; cbn [negb]; try reflexivity; discriminate.
  - induction ks as [|k ks IH]; [constructor|]. cbn [filter]. cbn [selected String.eqb Ascii.eqb Bool.eqb].
    destruct (marked_mandatory c k); cbn [negb app]; [constructor; exact IH|]. apply Permutation_cons_app, IH.
Qed.
Print Assumptions C57_partition_partial.

(** objects that passed the verification meet the hypotheses *)
Theorem C57_valid_partial : forall E m o o1 ev r what, db_ok E -> dicts_ok o ->
  verify E HRaise m o = (o1, ev, Ok r) -> In "GLOBAL_Version" (dkeys (pub o)) ->
  In what ["all"; "mandatory"; "optional"; "read only"; "data"] ->
  pub o1 = pub o /\
  exists w title rows,
    info E what o1 = (o1, [EvWarn w; EvPrint (title +++ "showing " +++ what +++ " entries : type (shape), flags" +++ nl +++ nl
                                            +++ sconcat (fun r => r) rows)], Ok tt)
    /\ Forall2 (row_of (conv o1)) (filter (selected what (conv o1)) (dkeys (pub o))) rows.
Proof.
  intros E m o o1 ev r what DB DO H GV W.
  destruct (verify_verified E m o o1 ev r DB DO H) as [cv [a [ds V]]].
  assert (P := vd_pub _ _ _ _ _ _ V). split; [exact P|]. rewrite <- P. apply C57_info_partial; [exact W| |].
  - intros k I. rewrite P in I. apply dget_Some_In in I. destruct I as [v G].
    destruct (vd_type _ _ _ _ _ _ V k v G) as [e [D _]]. rewrite (vd_conv _ _ _ _ _ _ V k), D. discriminate.
  - rewrite P. destruct (vd_cv _ _ _ _ _ _ V) as [b [c [w [content [G1 [G2 _]]]]]].
    intros k [<-|[<-|[<-|[]]]]; [apply dget_Some_In; eauto|apply dget_Some_In; eauto|exact GV].
Qed.
Print Assumptions C57_valid_partial.

(** An attribute that was added without protection has no entry. *)
Theorem C57_refuted :
  let o := m_obj (set_attr "Extra" (VStr false "text") (with_prot demo_sofa false)) in
  In "Extra" (dkeys (pub o)) /\ m_res (info demo "all" o) = Err (Exn EKeyError "Extra").
Proof.
  intro o. assert (X : smem "Extra" (dkeys (pub o)) = true) by (vm_compute; reflexivity).
  split; [exact (proj1 (smem_In _ _) X)|vm_compute; reflexivity].
Qed.
Print Assumptions C57_refuted.

(** the demo object has entries of both kinds *)
Example C57_case :
  (forall k, In k (dkeys (pub demo_sofa)) -> dget k (conv demo_sofa) <> None) /\
  (forall k, In k ["GLOBAL_SOFAConventions"; "GLOBAL_SOFAConventionsVersion"; "GLOBAL_Version"] -> In k (dkeys (pub demo_sofa))) /\
  smem "Data_IR" (filter (selected "mandatory" (conv demo_sofa)) (dkeys (pub demo_sofa))) = true /\
  smem "RoomTemperature" (filter (selected "optional" (conv demo_sofa)) (dkeys (pub demo_sofa))) = true /\
  m_res (info demo "mandatory" demo_sofa) = Ok tt.
Proof.
  split; [|split; [|split; [|split]]].
  - intros k I. assert (X : forallb (fun k => dmem k (conv demo_sofa)) (dkeys (pub demo_sofa)) = true) by (vm_compute; reflexivity).
    rewrite forallb_forall in X. specialize (X k I). unfold dmem in X. destruct (dget k (conv demo_sofa)); [discriminate|discriminate X].
  - intros k I. assert (X : forallb (fun k => smem k (dkeys (pub demo_sofa))) ["GLOBAL_SOFAConventions"; "GLOBAL_SOFAConventionsVersion"; "GLOBAL_Version"] = true) by (vm_compute; reflexivity).
    rewrite forallb_forall in X. exact (proj1 (smem_In _ _) (X k I)).
  - vm_compute. reflexivity.
  - vm_compute. reflexivity.
  - vm_compute. reflexivity.
Qed.
