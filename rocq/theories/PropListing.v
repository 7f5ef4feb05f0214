(** Lists of conventions and dimensions (C61, C64). *)
From Verif Require Import Base PyStr PyNum NdArray Sofa Verify Listing Demo SpecAttr SpecInit SpecVerify SpecListing
  BaseFacts CoreFacts AttrFacts OpFacts InitFacts MissingFacts ValidFacts DictFacts IssueFacts DimFacts RoundFacts DemoFacts PropVerify PropRound.
From Coq Require Import ZArith.
Open Scope Z_scope.
Open Scope nat_scope.
Open Scope string_scope.
Open Scope list_scope.

(** ** Objects of all listed conventions can be created *)
Lemma set_attr_free o k v w : prot o = false -> clean_key k -> normalize v = Ok w ->
  set_attr k v o = (with_pub o (dset k w (pub o)), [], Ok tt).
Proof.
  intros P [K1 [K2 K3]] N. unfold set_attr. rewrite K1, (eqb_neq_s _ _ K2), P, andb_false_r, (eqb_neq_s _ _ K3), N. reflexivity.
Qed.

Lemma stored_ok e : is_ok (normalize (e_default e)) = true -> (forall l, e_default e = VList l -> e_dims e <> None) ->
  exists v w, init_default e = Ok v /\ normalize v = Ok w.
Proof.
  intros N D. unfold init_default. destruct (normalize (e_default e)) as [w|] eqn:NW; [|discriminate N].
  destruct (e_default e) as [bb s|x|a|l] eqn:V; try (eexists; exists w; split; [reflexivity|exact NW]). clear N.
  destruct (e_dims e) as [d|]; [|destruct (D l eq_refl eq_refl)].
  unfold normalize in NW. unfold atleast_nd. destruct (np_array (VList l)) as [a|]; [|discriminate NW].
  eexists _, _. split; reflexivity.
Qed.

Lemma fill_ok l : forall o, prot o = false ->
  (forall ke, In ke l -> entry_fine ke /\ forall x, e_default (snd ke) = VList x -> e_dims (snd ke) <> None) ->
  exists o', mfor l (fun kv : string * entry => do v <- lift (init_default (snd kv)); set_attr (fst kv) v) o = (o', [], Ok tt)
    /\ prot o' = false.
Proof.
  induction l as [|ke l IH]; intros o P H; [exists o; split; [reflexivity|exact P]|].
  destruct (H ke (or_introl eq_refl)) as [[CK N] D]. destruct (stored_ok (snd ke) N D) as [v [w [I W]]].
  destruct (IH (with_pub o (dset (fst ke) w (pub o))) P) as [o' [M P']]; [intros; apply H; right; assumption|].
  exists o'. split; [|exact P']. cbn [mfor]. rewrite (bind_silent _ _ o (with_pub o (dset (fst ke) w (pub o))) tt); [exact M|].
  rewrite I, bind_lift. apply set_attr_free; assumption.
Qed.

Lemma strip0_nonempty s : s <> "" -> strip0 s <> "".
Proof.
  induction s as [|c s IH]; intro H; [destruct (H eq_refl)|]. cbn [strip0].
  destruct (Ascii.eqb c "0"); cbn [andb]; [|discriminate]. destruct (String.eqb_spec s "") as [->|N]; cbn [negb]; [discriminate|apply IH, N].
Qed.

Lemma digits_any s : forall a b, digits_val s a <> None -> digits_val s b <> None.
Proof.
  induction s as [|c s IH]; intros a b H; [discriminate|]. cbn in *. destruct (is_digit c); [|contradiction]. eapply IH. exact H.
Qed.

Lemma number_version v : float_str v = Some v -> exists b, version_geb v "1.0" = Ok b.
Proof.
  unfold float_str, parse_float. intro H.
  assert (P : exists l, parse_version v = Some l).
  { unfold parse_version. destruct (split "." v) as [|i [|f [|]]] eqn:S; try discriminate H.
    - destruct (String.eqb_spec i "") as [->|N]; [discriminate H|]. destruct (digits_val i 0) as [m|] eqn:D; [|discriminate H].
      cbn [omap]. unfold num_val. rewrite (eqb_neq_s _ _ N), D. eauto.
    - destruct (String.eqb_spec i "") as [->|N1]; [discriminate H|]. destruct (String.eqb_spec f "") as [->|N2]; [discriminate H|].
      cbn [orb] in H. destruct (digits_val (i +++ f) 0) as [m|] eqn:D; [|discriminate H].
      rewrite digits_val_app in D. cbn [omap]. unfold num_val. rewrite (eqb_neq_s _ _ N1), (eqb_neq_s _ _ N2).
      destruct (digits_val i 0) as [n|]; [|discriminate D]. destruct (digits_val f 0) as [q|] eqn:DF; [eauto|].
      exfalso. apply (digits_any f n 0%N); congruence. }
  destruct P as [l P]. unfold version_geb, version_ltb. rewrite P. eexists. reflexivity.
Qed.

Lemma created E c v ct mandatory : db_ok E -> db_creatable E -> has_file E c v ct ->
  exists ev o, sofa_init E c mandatory v VNo = (ev, Ok o).
Proof.
  intros DB [TD DC] HF. destruct (has_file_version E c v ct DB HF) as [FV [NV NL]].
  unfold sofa_init. rewrite (proj1 (load_version E c v DB NL) ct HF).
  destruct (proj2 DB _ HF) as [c' [v' [F1 [F2 [F3 [F4 [F5 [F6 [F7 F8]]]]]]]]]. cbn [fst snd] in *.
  destruct F8 as [e [b [G [_ [_ D]]]]].
  assert (X : exists o ev, init_body E (sofar_keys ct) mandatory VNo empty_sofa = (o, ev, Ok tt)).
  { unfold init_body, modify. rewrite (bind_silent _ _ empty_sofa (with_ro (with_conv empty_sofa (sofar_keys ct)) (ro_of_convention (sofar_keys ct))) tt) by reflexivity.
    unfold convention_to_sofa at 1.
    match goal with |- context[bind (bind get ?f) _ ?o] => set (o0 := o) end.
    destruct (fill_ok (filter (fun kv : string * entry => is_mandatory (e_flags (snd kv)) || negb mandatory) (conv o0)) o0 eq_refl)
      as [o1 [M P]].
    { intros ke I. apply filter_In in I. destruct I as [I _]. split; [apply (TD _ _ HF I)|intros x; apply (DC _ _ _ HF I)]. }
    assert (CS : exists o2, (do o <- get;
  do_ mfor (filter (fun kv => is_mandatory (e_flags (snd kv)) || negb mandatory) (conv o))
    (fun kv => do v <- lift (init_default (snd kv)); set_attr (fst kv) v);
  do_ set_protected false;
  do_ set_attr "GLOBAL_DateCreated" (VStr false (now E));
  do_ set_attr "GLOBAL_DateModified" (VStr false (now E));
  do_ set_attr "GLOBAL_APIName" (VStr false api_name);
  do_ set_attr "GLOBAL_APIVersion" (VStr false (sofar_version E));
  do_ set_attr "GLOBAL_ApplicationName" (VStr false "Python");
  do_ set_attr "GLOBAL_ApplicationVersion" (VStr false (python_version E));
  set_protected true) o0 = (o2, [], Ok tt)).
    { rewrite bind_get, (bind_silent _ _ _ _ _ M).
      unfold set_protected, modify. rewrite (bind_silent _ _ o1 (with_prot o1 false) tt) by reflexivity.
      eexists.
      repeat (erewrite bind_silent; [|apply set_attr_free; [reflexivity|repeat split; try reflexivity; discriminate|reflexivity]]).
      reflexivity. }
    destruct CS as [o2 CS]. rewrite (bind_silent _ _ _ _ _ CS).
    unfold dgetE. rewrite G, bind_lift. cbv zeta. rewrite D. unfold stable_version.
    destruct (number_version v' F4) as [bb NB]. rewrite bind_ret. cbn [andb].
    rewrite NB. unfold set_protected, modify. destruct bb; eexists _, _; reflexivity. }
  destruct X as [o [ev ->]]. eauto.
Qed.

(** ** C61: list_conventions *)
Lemma listed_files E nv : NoDup (map fst (db E)) ->
  Forall2 (fun (f : string * convention) cv => fst f = file_name (fst cv) (snd cv)
                 /\ float_str (snd cv) = Some (snd cv)) (db E) nv ->
  NoDup nv /\ forall c v, In (c, v) nv -> exists content, has_file E c v content.
Proof.
  unfold has_file. generalize (db E) as l. intros l ND F. induction F as [|f cv l nv [F1 _] F IH].
  - split; [constructor|]. intros c v [].
  - cbn [map] in ND. apply NoDup_cons_iff in ND. destruct ND as [N1 N2]. destruct (IH N2) as [I1 I2]. split.
    + constructor; [|exact I1]. destruct cv as [c v]. intro I. destruct (I2 c v I) as [ct H]. apply N1. cbn [fst snd] in F1. rewrite F1.
      apply in_map_iff. exists (file_name c v, ct). split; [reflexivity|exact H].
    + intros c v [->|I]; [exists (snd f); left; destruct f; cbn [fst snd] in *; rewrite F1; reflexivity|].
      destruct (I2 c v I) as [ct H]. exists ct. right. exact H.
Qed.

(** One line for each convention file; the listed conventions and versions are
    exactly those of which objects can be created *)
Theorem C61_list_conventions : forall E, db_ok E ->
  exists text l, list_conventions E = ([EvPrint text], Ok tt)
    /\ table text ("Available SOFA conventions:" +++ nl) l
         (fun cv r => r = fst cv +++ " (Version " +++ snd cv +++ ")" +++ nl)
    /\ NoDup l
    /\ (forall c v, In (c, v) l <-> exists content, has_file E c v content)
    /\ (db_creatable E -> forall c v mandatory, v <> "latest" ->
          (In (c, v) l <-> exists ev o, sofa_init E c mandatory v VNo = (ev, Ok o))).
Proof.
  intros E DB. destruct (name_version_spec E DB) as [nv [N1 N2]].
  destruct (listed_files E nv (proj1 DB) N2) as [ND IN].
  unfold list_conventions, conventions_text. rewrite N1. cbn [rbind]. eexists _, nv. split; [reflexivity|]. split.
  { exists (map convention_line nv). split.
    - rewrite sapp_assoc. do 2 f_equal. clear. induction nv as [|x l IH]; [reflexivity|]. cbn [sconcat map]. rewrite IH. reflexivity.
    - clear. induction nv as [|x l IH]; constructor; [reflexivity|exact IH]. }
  split; [exact ND|].
  assert (F : forall c v, In (c, v) nv <-> exists content, has_file E c v content).
  { intros c v. split; [apply IN|]. intros [ct HF]. assert (HF' := HF). unfold has_file in HF.
    assert (X : forall f, In f (db E) -> exists cv, In cv nv /\ fst f = file_name (fst cv) (snd cv)).
    { clear -N2. induction N2 as [|f cv l nv [F1 _] F IH]; intros g []; [subst g; exists cv; split; [left; reflexivity|exact F1]|].
      destruct (IH g H) as [x [I Q]]. exists x. split; [right; exact I|exact Q]. }
    destruct (X _ HF) as [[c' v'] [I Q]]. cbn [fst snd] in Q. destruct (IN c' v' I) as [ct' HF2].
    assert (HF3 : has_file E c' v' ct) by (unfold has_file; rewrite <- Q; exact HF).
    assert (V : v' = v).
    { destruct (has_file_version E c v ct DB HF') as [V1 _]. destruct (has_file_version E c' v' ct DB HF3) as [V2 _]. congruence. }
    subst v'. unfold file_name in Q. assert (c = c'); [|subst; exact I].
    revert Q. generalize ("_" +++ v +++ ".json"). clear. intros t Q. revert c' Q. induction c as [|x c IH]; intros [|y c'] Q.
    - reflexivity.
    - exfalso. apply (f_equal String.length) in Q. cbn in Q. rewrite sapp_length in Q. lia.
    - exfalso. apply (f_equal String.length) in Q. cbn in Q. rewrite sapp_length in Q. lia.
    - cbn [append] in Q. injection Q as -> Q. f_equal. apply IH. exact Q. }
  split; [exact F|]. intros DC c v mandatory NL. rewrite F. split.
  - intros [ct HF]. apply (created E c v ct mandatory DB DC HF).
  - intros [ev [o HI]]. destruct (armed_init E c mandatory v VNo ev o DB HI) as [v' [_ [_ [HL _]]]].
    destruct (load_has_file E c v (conv o) DB NL HL) as [ct [HF _]]. eauto.
Qed.
Print Assumptions C61_list_conventions.

Lemma demo_creatable : db_creatable demo.
Proof.
  split; [exact demo_tidy|]. intros f ke l If Ik D.
  assert (H : forallb (fun f => forallb (fun ke => match e_default (snd ke), e_dims (snd ke) with VList _, None => false | _, _ => true end)
                                        (sofar_keys (snd f))) (db demo) = true) by (vm_compute; reflexivity).
  rewrite forallb_forall in H. specialize (H f If). cbn beta in H. rewrite forallb_forall in H. specialize (H ke Ik). cbn beta in H.
  rewrite D in H. destruct (e_dims (snd ke)); [discriminate|discriminate H].
Qed.

Example C61_case : db_ok demo /\ db_creatable demo /\
  list_conventions demo = ([EvPrint ("Available SOFA conventions:" +++ nl +++
    "SimpleFreeFieldHRIR (Version 1.0)" +++ nl +++ "SimpleFreeFieldHRIR (Version 0.4)" +++ nl +++ "Old (Version 0.4)" +++ nl)], Ok tt).
Proof. split; [exact demo_db_ok|]. split; [exact demo_creatable|]. vm_compute. reflexivity. Qed.

(** ** C64: list_dimensions *)
(** Missing for the full claim: list_dimensions raises for some valid objects, see
    [C64_refuted]. *)
Theorem C64_list_dimensions_partial : forall E o o' ev, db_ok E -> dicts_ok o ->
  list_dimensions E o = (o', ev, Ok tt) ->
  exists before text cv l, ev = before ++ [EvPrint text] /\ convention_of E o cv
    /\ table text "" l dimension_line /\ NoDup (map fst l)
    /\ (forall x n, In (x, n) l <-> size cv o' x n)
    /\ (forall x n, In (x, n) l <-> m_res (get_dimension E x o) = Ok n).
Proof.
  intros E o o' ev DB DO H. unfold list_dimensions in H.
  apply bind_Ok in H. destruct H as [o1 [e1 [u [e2 [H1 [H ->]]]]]]. rewrite bind_get in H.
  destruct (update_dimensions_fresh E o o1 e1 u DB DO H1) as [cv [od [s [C [A [HD [S1 _]]]]]]].
  assert (ND := detect_nodup od s HD).
  assert (GD : forall x n, m_res (get_dimension E x o) = Ok n <-> dget x (fixed_sizes s) = Some n).
  { intros x n. unfold get_dimension. rewrite (bind_does _ _ _ _ _ _ H1), bind_get, A.
    destruct (dget x (fixed_sizes s)); unfold m_res; cbn; split; congruence. }
  rewrite A in H.
  assert (X : exists text, e2 = [EvPrint text] /\ o' = o1 /\ table text "" (fixed_sizes s) dimension_line).
  { apply bind_Ok in H. destruct H as [q1 [f1 [dt [f2 [L1 [H ->]]]]]]. unfold lift in L1. injection L1 as <- <- _.
    apply bind_Ok in H. destruct H as [q1 [f3 [dt2 [f4 [L1 [H ->]]]]]].
    assert (q1 = o1 /\ f3 = []) as [-> ->] by (destruct dt; try discriminate L1; injection L1 as <- <- _; auto). clear L1.
    apply bind_Ok in H. destruct H as [q1 [f3 [rr [f5 [L1 [H ->]]]]]]. unfold lift in L1. injection L1 as <- <- _.
    apply bind_Ok in H. destruct H as [q1 [f3 [re [f6 [L1 [H ->]]]]]]. unfold lift in L1. injection L1 as <- <- _.
    apply bind_Ok in H. destruct H as [q1 [f3 [nn [f7 [L1 [H ->]]]]]].
    assert (q1 = o1 /\ f3 = []) as [-> ->].
    { revert L1. destruct (if startswith "FIR" dt2 then _ else _); intro L1; [injection L1 as <- <- _; auto|discriminate L1]. }
    clear L1. unfold emit in H. injection H as <- <-. eexists. split; [reflexivity|]. split; [reflexivity|].
    match goal with |- table (sconcat ?g ?a) _ _ _ => exists (map g a); split; [generalize a|] end.
    - clear. intro a. cbn [append]. induction a as [|x a IH]; [reflexivity|]. cbn [sconcat map]. rewrite <- IH. reflexivity.
    - generalize (fixed_sizes s). clear. intro a. induction a as [|[k n] a IH]; constructor; [|exact IH].
      unfold dimension_line. cbv beta iota zeta. cbn [fst snd].
      match goal with |- context[nat_str n +++ String " " (?p +++ ?q +++ _)] => exists (p +++ q) end.
      rewrite (sapp_assoc _ _ nl). reflexivity. }
  destruct X as [text [-> [-> T]]]. exists e1, text, cv, (fixed_sizes s). split; [reflexivity|]. split; [exact C|]. split; [exact T|].
  split; [exact ND|].
  assert (ID : forall x n, In (x, n) (fixed_sizes s) <-> dget x (fixed_sizes s) = Some n).
  { intros x n. split; [apply In_dget; exact ND|apply dget_In]. }
  split; intros x n; rewrite ID; [apply S1|symmetry; apply GD].
Qed.
Print Assumptions C64_list_dimensions_partial.

Lemma raise_ok_complete E m o o' ev r : db_ok E -> dicts_ok o ->
  verify E HRaise m o = (o', ev, Ok r) -> complete E o.
Proof.
  intros DB DO H. destruct (raise_ok_core _ _ _ _ _ _ H) as [o1 [e1 [w [a [d [R [M _]]]]]]].
  destruct (reset_iff E o DB DO) as [RI _]. destruct (RI _ R) as [b [c [wv [content [V1 [V2 [V3 RT]]]]]]].
  intros cv k e CV D MA. assert (cv = sofar_keys content).
  { apply (convention_unique E o _ _ DB); [|exact CV]. exists b, c, wv, content. auto. }
  subst cv. apply (proj1 (missing_iff _ _ _ RT) M k e D MA).
Qed.

Lemma raise_ok_return E m o o' ev r : db_ok E -> dicts_ok o ->
  verify E HRaise m o = (o', ev, Ok r) -> exists ev', verify E HReturn m o = (o', ev', Ok None) /\ pub o' = pub o.
Proof.
  intros DB DO H. assert (C := raise_ok_complete _ _ _ _ _ _ DB DO H).
  assert (P : pub o' = pub o).
  { destruct (raise_ok_core _ _ _ _ _ _ H) as [o1 [e1 [w [a [d [R [M [_ [_ [-> _]]]]]]]]]].
    assert (DS := reset_data_same E o). rewrite R in DS. exact (ds_pub _ _ DS). }
  destruct (verify_complete E m o DB DO C) as [[[o2 ev2] [[e w]|x]] [H1 _]].
  - assert (A := H1 HRaise ltac:(discriminate)). rewrite H in A. cbn [outcome] in A.
    injection A as -> -> A. unfold answer in A. destruct (String.eqb e "") eqn:EE; [|discriminate A].
    eexists. split; [|exact P]. rewrite (H1 HReturn) by discriminate. cbn [outcome answer]. rewrite EE. reflexivity.
  - assert (A := H1 HRaise ltac:(discriminate)). rewrite H in A. discriminate A.
Qed.

(** For which valid objects list_dimensions works *)
Theorem C64_works_partial : forall E o bd dt br rt be et, db_ok E -> dicts_ok o ->
  is_ok (m_res (verify E HRaise VWrite o)) = true ->
  dget "GLOBAL_DataType" (pub o) = Some (VStr bd dt) ->
  dget "ReceiverPosition_Type" (pub o) = Some (VStr br rt) ->
  dget "EmitterPosition_Type" (pub o) = Some (VStr be et) ->
  (m_res (list_dimensions E o) = Ok tt
   <-> exists family rest, In family ["FIR"; "TF"; "SOS"] /\ dt = family +++ rest).
Proof.
  intros E o bd dt br rt be et DB DO OK G1 G2 G3.
  destruct (verify E HRaise VWrite o) as [[o1 ev] [r|x]] eqn:V; [|discriminate OK].
  destruct (raise_ok_return _ _ _ _ _ _ DB DO V) as [ev' [VR P]].
  destruct (verified_dims _ _ _ _ _ _ DB DO V) as [cv [a [d [_ [A _]]]]].
  assert (U : update_dimensions E o = (o1, ev' ++ [], Ok tt)).
  { unfold update_dimensions. rewrite (bind_does _ _ _ _ _ _ VR), bind_get. reflexivity. }
  unfold list_dimensions. rewrite (bind_does _ _ _ _ _ _ U), bind_get. unfold getattr.
  rewrite P, G1, G2, G3, A, bind_lift, bind_ret. cbv beta iota zeta. cbn [rbind]. rewrite !bind_lift.
  assert (SW : (startswith "FIR" dt || startswith "TF" dt || startswith "SOS" dt)%bool = true
               <-> exists family rest, In family ["FIR"; "TF"; "SOS"] /\ dt = family +++ rest).
  { rewrite !orb_true_iff, !startswith_iff. split.
    - intros [[[x ->]|[x ->]]|[x ->]]; eexists _, x; (split; [|reflexivity]); cbn [In]; auto.
    - intros [f [x [[<-|[<-|[<-|[]]]] ->]]]; eauto. }
  rewrite <- SW. destruct (startswith "FIR" dt); [rewrite bind_ret; split; reflexivity|].
  destruct (startswith "TF" dt); [rewrite bind_ret; split; reflexivity|].
  destruct (startswith "SOS" dt); [rewrite bind_ret; split; reflexivity|].
  split; discriminate.
Qed.
Print Assumptions C64_works_partial.

Example C64_case : db_ok demo /\ dicts_ok demo_sofa
  /\ is_ok (m_res (verify demo HRaise VWrite demo_sofa)) = true
  /\ map (fun k => dget k (pub demo_sofa)) ["GLOBAL_DataType"; "ReceiverPosition_Type"; "EmitterPosition_Type"]
     = map (fun s => Some (VStr false s)) ["FIR"; "cartesian"; "cartesian"]
  /\ m_res (list_dimensions demo demo_sofa) = Ok tt /\
  map (fun x => m_res (get_dimension demo x demo_sofa)) ["M"; "R"; "E"; "N"; "C"; "I"; "S"] = map Ok [1; 2; 1; 2; 3; 1; 0].
Proof.
  split; [exact demo_db_ok|]. split; [apply dicts_check; vm_compute; reflexivity|].
  split; [vm_compute; reflexivity|]. split; [vm_compute; reflexivity|].
  split; vm_compute; reflexivity.
Qed.

(** A convention with the data type Audio (as AnnotatedReceiverAudio): a new
    object is valid and get_dimension works, but list_dimensions raises an
    UnboundLocalError *)
Definition audio_conv : convention :=
  map (fun ke => if String.eqb (fst ke) "GLOBAL:SOFAConventions" then (fst ke, attr rm "AnnotatedReceiverAudio")
                 else if String.eqb (fst ke) "GLOBAL:DataType" then (fst ke, attr rm "Audio") else ke) (hrir "1.0").
Definition audio : env :=
  Env [("AnnotatedReceiverAudio_1.0.json", audio_conv)] [] demo_aliases [] []
      (fun _ => "?") (fun _ => "") "now" "sofar" "3".
Definition audio_sofa : sofa :=
  match sofa_init audio "AnnotatedReceiverAudio" false "latest" VAuto with (_, Ok o) => o | _ => empty_sofa end.
Theorem C64_refuted :
  m_res (verify audio HRaise VWrite audio_sofa) = Ok None
  /\ m_res (get_dimension audio "N" audio_sofa) = Ok 2
  /\ m_res (list_dimensions audio audio_sofa) = Err (Exn EUnboundLocalError "N_verbose").
Proof. split; [|split]; vm_compute; reflexivity. Qed.
Print Assumptions C64_refuted.
