(** C105: info shows what the rows of the csv file say. *)
From Verif Require Import Base PyStr PyNum NdArray Sofa Verify UpdateConv Library Demo
  SpecAttr SpecInit SpecListing SpecUpdate SpecVerify SpecCsv SpecInfo
  BaseFacts StrFacts AttrFacts CoreFacts WriteFacts RoundFacts MissingFacts UpdateFacts CsvFacts CsvRows TotalFacts SameFacts DictFacts
  InitFacts PropInit PropListing PropUpdate PropCsv PropInfo.
From Coq Require Import ZArith Lia.
Import Verify.
Open Scope string_scope.
Open Scope list_scope.

(** ** Specification: the text for a row of the csv file *)
(** text of a cell, [None] for blank ones *)
Definition cell_text (fields : dict cell) (k : string) : option string :=
  match dget k fields with Some (Some (VStr _ s)) => Some s | _ => None end.
Definition text_or (d : string) (c : option string) : string := match c with Some s => s | None => d end.
Definition flagged (c : ascii) (fields : dict cell) : bool := has_char c (text_or "" (cell_text fields "flags")).
(** line of the lists *)
Definition list_line (key : string) (fields : dict cell) : string :=
  key +++ " : " +++ text_or "" (cell_text fields "type") +++ shape_note (cell_text fields "dimensions")
  +++ (if flagged "m" fields then ", mandatory" else ", optional")
  +++ (if flagged "r" fields then ", read only" else "") +++ comment_note (cell_text fields "comment").
(** lines for a single name *)
Definition yes_no (b : bool) : string := if b then "True" else "False".
Definition all_lines (E : env) (key : string) (fields : dict cell) : string :=
  key +++ nl
  +++ "    type: " +++ text_or "" (cell_text fields "type") +++ nl
  +++ "    mandatory: " +++ yes_no (flagged "m" fields) +++ nl
  +++ "    read only: " +++ yes_no (flagged "r" fields) +++ nl
  +++ "    default: " +++ match dget "default" fields with Some (Some v) => py_str E v | _ => "" end +++ nl
  +++ "    shape: " +++ upper (text_or "None" (cell_text fields "dimensions")) +++ nl
  +++ "    comment: " +++ text_or "None" (cell_text fields "comment") +++ nl.
(** rows that are selected by the words *)
Definition wanted (what : string) (fields : dict cell) : bool :=
  if String.eqb what "mandatory" then flagged "m" fields
  else if String.eqb what "optional" then negb (flagged "m" fields)
  else if String.eqb what "read only" then flagged "r" fields
  else if String.eqb what "data" then negb (String.eqb (text_or "" (cell_text fields "type")) "attribute")
  else true.
Definition words : list string := ["all"; "mandatory"; "optional"; "read only"; "data"].
Fixpoint dashes (n : nat) : string := match n with O => "" | S n => "-" +++ dashes n end.
Definition title (c v : string) (sofa_version : string) : string :=
  let t := c +++ " " +++ v +++ " (SOFA version " +++ sofa_version +++ ")" in
  t +++ nl +++ dashes (String.length t + 1) +++ nl.
(** the warning *)
Definition outdated : event := EvWarn "Sofa.info() will be deprecated in sofar 1.3.0 The conventions are now documented at https://sofar.readthedocs.io/en/stable/resources/conventions.html".

(** ** Lemmas *)
Lemma dashes_chars s : sconcat (fun _ => "-") (chars s) = dashes (String.length s).
Proof. induction s as [|a s IH]; [reflexivity|]. change (sconcat (fun _ => "-") (chars (String a s))) with ("-" +++ sconcat (fun _ => "-") (chars s)).
  rewrite IH. reflexivity. Qed.

Lemma title_header E c v sv o b1 b2 : dget "GLOBAL_SOFAConventions" (pub o) = Some (VStr b1 c) ->
  dget "GLOBAL_SOFAConventionsVersion" (pub o) = Some (VStr b2 v) -> dget "GLOBAL_Version" (pub o) = Some sv ->
  exists hd, header E o = Ok hd /\ hd +++ sconcat (fun _ => "-") (chars hd) +++ nl = title c v (py_str E sv).
Proof.
  intros G1 G2 G3. eexists. unfold header. rewrite (getattr_pub _ _ _ G1), (getattr_pub _ _ _ G2), (getattr_pub _ _ _ G3). cbn [rbind].
  change (py_str E (VStr b1 c)) with c. change (py_str E (VStr b2 v)) with v.
  split; [reflexivity|]. rewrite dashes_chars. unfold title. cbv zeta. rewrite !sapp_assoc.
  assert (L : String.length (c +++ " " +++ v +++ " (SOFA version " +++ py_str E sv +++ ")" +++ nl)
    = String.length (c +++ " " +++ v +++ " (SOFA version " +++ py_str E sv +++ ")") + 1).
  { rewrite !slength_app. cbn [String.length]. unfold nl, str1. cbn [String.length]. lia. }
  rewrite L. reflexivity.
Qed.

Lemma line_of_fields what key fields e : fields_of fields e ->
  info_entry what key e = (if info_skip what e then "" else list_line key fields)
  /\ (In what words -> info_skip what e = negb (wanted what fields)).
Proof.
  intros [FD [f [F1 F2]] [m [M1 M2]] [b T] [c [C1 C2]]].
  assert (TT : cell_text fields "type" = Some (e_type e)) by (unfold cell_text; rewrite T; reflexivity).
  assert (TF : cell_text fields "flags" = e_flags e) by (unfold cell_text; rewrite F1, F2; reflexivity).
  assert (TM : cell_text fields "dimensions" = e_dims e) by (unfold cell_text; rewrite M1, M2; reflexivity).
  assert (TC : cell_text fields "comment" = e_comment e) by (unfold cell_text; rewrite C1, C2; reflexivity).
  assert (GM : flagged "m" fields = is_mandatory (e_flags e)).
  { unfold flagged. rewrite TF. unfold is_mandatory, flag_in. destruct (e_flags e); reflexivity. }
  assert (GR : flagged "r" fields = is_read_only (e_flags e)).
  { unfold flagged. rewrite TF. unfold is_read_only, flag_in. destruct (e_flags e); reflexivity. }
  split.
  - unfold info_entry. destruct (info_skip what e); [reflexivity|]. unfold list_line. rewrite TT, TM, TC, GM, GR. cbn [text_or].
    assert (X : match e_dims e with Some d => if String.eqb d "" then "" else " (" +++ upper d +++ ")" | None => "" end = shape_note (e_dims e))
      by (destruct (e_dims e) as [[|x d]|]; reflexivity).
    assert (Y : match e_comment e with Some c => if String.eqb c "" then nl else nl +++ "    " +++ c +++ nl | None => nl end = comment_note (e_comment e))
      by (destruct (e_comment e) as [[|x d]|]; reflexivity).
    rewrite X, Y. reflexivity.
  - intro W. unfold info_skip, wanted. rewrite TT, GM, GR. cbn [text_or]. cbn [In words] in W.
    destruct W as [<-|[<-|[<-|[<-|[<-|[]]]]]]; cbn [String.eqb Ascii.eqb Bool.eqb];
      destruct (is_mandatory (e_flags e)), (is_read_only (e_flags e)), (String.eqb (e_type e) "attribute"); reflexivity.
Qed.
Lemma lines_of_fields E key fields e : fields_of fields e -> info_detail E key e = all_lines E key fields.
Proof.
  intros [FD [f [F1 F2]] [m [M1 M2]] [b T] [c [C1 C2]]].
  assert (TT : cell_text fields "type" = Some (e_type e)) by (unfold cell_text; rewrite T; reflexivity).
  assert (TF : cell_text fields "flags" = e_flags e) by (unfold cell_text; rewrite F1, F2; reflexivity).
  assert (TM : cell_text fields "dimensions" = e_dims e) by (unfold cell_text; rewrite M1, M2; reflexivity).
  assert (TC : cell_text fields "comment" = e_comment e) by (unfold cell_text; rewrite C1, C2; reflexivity).
  assert (GM : flagged "m" fields = is_mandatory (e_flags e)).
  { unfold flagged. rewrite TF. unfold is_mandatory, flag_in. destruct (e_flags e); reflexivity. }
  assert (GR : flagged "r" fields = is_read_only (e_flags e)).
  { unfold flagged. rewrite TF. unfold is_read_only, flag_in. destruct (e_flags e); reflexivity. }
  unfold info_detail, all_lines. rewrite TT, TM, TC, GM, GR, FD. reflexivity.
Qed.

(** the rows of the data of an object in their order *)
Definition rows_for (ents : dict (dict cell)) (keys : list string) (kfs : list (string * dict cell)) : Prop :=
  map fst kfs = keys /\ forall k f, In (k, f) kfs -> exists name, In (name, f) ents /\ k = python_name name.

Lemma rows_exist ents cv keys : Forall2 (fun kf ke => fst ke = fst kf /\ fields_of (snd kf) (snd ke)) (arranged ents) cv ->
  NoDup (map python_name (dkeys ents)) -> (forall k, In k keys -> In k (map python_name (dkeys ents))) ->
  exists kfs, rows_for ents keys kfs /\ forall k f, In (k, f) kfs -> exists e, dget k (sofar_keys cv) = Some e /\ fields_of f e.
Proof.
  intros FA ND H. assert (KS := keys_same _ _ _ FA).
  assert (NDc : NoDup (map python_name (dkeys cv))) by (rewrite KS; apply arranged_NoDup, ND).
  assert (SK := sofar_keys_all cv NDc).
  induction keys as [|k keys IH].
  - exists []. split; [split; [reflexivity|intros ? ? []]|intros ? ? []].
  - destruct IH as [kfs [[R1 R2] R3]]; [intros x I; apply H; right; exact I|].
    specialize (H k (or_introl eq_refl)). apply in_map_iff in H. destruct H as [name [PN I]].
    apply in_map_iff in I. destruct I as [[n f] [Q I]]. cbn [fst] in Q. subst n.
    assert (J := proj2 (arranged_In ents (name, f)) I). destruct (keys_fwd _ _ _ FA name f J) as [e [IE FE]].
    assert (GE : dget k (sofar_keys cv) = Some e).
    { rewrite SK. apply In_dget.
      - unfold dkeys. rewrite map_map. cbn. unfold dkeys in NDc. rewrite map_map in NDc. exact NDc.
      - apply in_map_iff. exists (name, e). split; [cbn [fst snd]; rewrite PN; reflexivity|exact IE]. }
    exists ((k, f) :: kfs). split.
    + split; [cbn [map fst]; rewrite R1; reflexivity|]. intros k' f' [X|X]; [injection X as <- <-; exists name; auto|exact (R2 _ _ X)].
    + intros k' f' [X|X]; [injection X as <- <-; exists e; auto|exact (R3 _ _ X)].
Qed.

Lemma list_text what cv kfs : In what words -> (forall k f, In (k, f) kfs -> exists e, dget k cv = Some e /\ fields_of f e) ->
  rconcat (fun k => let? e := dgetE k cv in Ok (info_entry what k e)) (map fst kfs)
  = Ok (sconcat (fun kf => list_line (fst kf) (snd kf)) (filter (fun kf => wanted what (snd kf)) kfs)).
Proof.
  intros W. induction kfs as [|[k f] kfs IH]; intro H; [reflexivity|]. cbn [map fst rconcat filter snd].
  rewrite IH by (intros a b I; apply H; right; exact I).
  destruct (H k f (or_introl eq_refl)) as [e [D FO]]. unfold dgetE. rewrite D. cbn [rbind].
  destruct (line_of_fields what k f e FO) as [L1 L2]. rewrite L1, (L2 W). destruct (wanted what f); reflexivity.
Qed.
Lemma name_text E what cv kfs : (forall k f, In (k, f) kfs -> exists e, dget k cv = Some e /\ fields_of f e) ->
  rconcat (fun k => let? e := dgetE k cv in Ok (info_detail E k e)) (filter (contains what) (map fst kfs))
  = Ok (sconcat (fun kf => all_lines E (fst kf) (snd kf)) (filter (fun kf => contains what (fst kf)) kfs)).
Proof.
  induction kfs as [|[k f] kfs IH]; intro H; [reflexivity|]. cbn [map fst filter].
  assert (IH' := IH (fun a b I => H a b (or_intror I))).
  destruct (contains what k); [|exact IH']. cbn [rconcat]. rewrite IH'.
  destruct (H k f (or_introl eq_refl)) as [e [D FO]]. unfold dgetE. rewrite D. cbn [rbind].
  rewrite (lines_of_fields E k f e FO). reflexivity.
Qed.

(** ** C105 *)
(** A new object of a convention whose csv file was compiled: the words show the
    name, type, shape, flags and comment of the selected rows; the name of an
    entry shows all fields of the rows whose names contain it; everything else
    raises ValueError and prints nothing. *)
Theorem C105_info :
  forall F d d' dir c v text ents E mandatory vo ev o sv what,
  compile_conventions F d = (d', Ok tt) ->
  In dir places -> has_char "/" (c +++ "_" +++ v) = false -> startswith "." (c +++ "_" +++ v) = false -> v <> "latest" ->
  dget (dir +++ c +++ "_" +++ v +++ ".csv") (csvs d) = Some text ->
  is_csv_of F text ents -> NoDup (map python_name (dkeys ents)) ->
  (forall k, In k (dkeys (creation_entries E)) -> In k (map python_name (dkeys ents))) ->
  library d' = Some (db E) -> db_ok E ->
  sofa_init E c mandatory v vo = (ev, Ok o) -> dget "GLOBAL_Version" (pub o) = Some sv ->
  exists kfs, rows_for ents (dkeys (pub o)) kfs
    /\ (In what words ->
          info E what o = (o, [outdated; EvPrint (title c v (py_str E sv) +++ "showing " +++ what +++ " entries : type (shape), flags" +++ nl +++ nl
             +++ sconcat (fun kf => list_line (fst kf) (snd kf)) (filter (fun kf => wanted what (snd kf)) kfs))], Ok tt))
    /\ (~ In what words -> In what (dkeys (pub o)) ->
          info E what o = (o, [outdated; EvPrint (title c v (py_str E sv)
             +++ sconcat (fun kf => all_lines E (fst kf) (snd kf)) (filter (fun kf => contains what (fst kf)) kfs))], Ok tt))
    /\ (~ In what words -> ~ In what (dkeys (pub o)) ->
          info E what o = (o, [outdated], Err (Exn EValueError ("info='" +++ what +++ "' is invalid")))).
Proof.
  intros F d d' dir c v text ents E mandatory vo ev o sv what HC ID HS HD NL G CSV ND CE HL DB SI GV.
  assert (ND0 : NoDup (dkeys ents)) by (eapply NoDup_map_inv; exact ND).
  destruct (compiled_file F d d' dir c v text ents E HC ID HS HD G CSV ND0 HL) as [cv [CV HF]].
  destruct (C25_requested_version E c mandatory v vo DB NL) as [RV _].
  destruct (RV ev o SI) as [ct [b [HF' [CO _]]]].
  rewrite <- (file_unique E c v cv ct DB HF HF') in CO. clear HF' ct RV.
  assert (FA := convention_keys _ _ CV).
  destruct (armed_init _ _ _ _ _ _ _ DB SI) as [v' [AR [PR [LO [NC [RO [CU VV]]]]]]]. rewrite (VV NL) in AR.
  destruct (C83_csv_to_object F d d' dir c v text ents E mandatory vo ev o HC ID HS HD NL G CSV ND HL DB SI) as [_ KK].
  destruct (rows_exist ents cv (dkeys (pub o)) FA ND) as [kfs [RF KF]].
  { intros k I. destruct (KK k) as [X|X]; [exact I|exact (CE k X)|exact X]. }
  exists kfs. split; [exact RF|]. destruct RF as [RK _].
  destruct (ar_name _ _ _ _ _ AR) as [b1 N1]. destruct (ar_version _ _ _ _ _ AR) as [b2 N2].
  destruct (title_header E c v sv o b1 b2 N1 N2 GV) as [hd [H1 H2]].
  rewrite <- CO in KF.
  split; [|split]; unfold info; unfold emit at 1, bind at 1; cbn [fst snd]; rewrite bind_get, H1, bind_lift; cbv zeta.
  - intro W. assert (M : smem what ["all"; "mandatory"; "optional"; "read only"; "data"] = true) by (apply smem_In; exact W).
    rewrite M, <- RK, (list_text what (conv o) kfs W KF), bind_lift. rewrite <- H2, !sapp_assoc. reflexivity.
  - intros W I. assert (M : smem what ["all"; "mandatory"; "optional"; "read only"; "data"] = false).
    { destruct (smem what _) eqn:X; [|reflexivity]. apply smem_In in X. contradiction. }
    rewrite M. apply smem_In in I. rewrite I, <- RK, (name_text E what (conv o) kfs KF), bind_lift. rewrite <- H2, !sapp_assoc. reflexivity.
  - intros W I. assert (M : smem what ["all"; "mandatory"; "optional"; "read only"; "data"] = false).
    { destruct (smem what _) eqn:X; [|reflexivity]. apply smem_In in X. contradiction. }
    rewrite M. assert (M2 : smem what (dkeys (pub o)) = false).
    { destruct (smem what (dkeys (pub o))) eqn:X; [|reflexivity]. apply smem_In in X. contradiction. }
    rewrite M2. reflexivity.
Qed.
Print Assumptions C105_info.

(** ** the demo file with the rows of the entries that are written at creation *)
Lemma sconcat_both {A} (g : A -> string) l m : sconcat g (l ++ m) = sconcat g l +++ sconcat g m.
Proof. induction l as [|x l IH]; [reflexivity|]. cbn [app sconcat]. change (fun x => g x) with g. rewrite IH, sapp_assoc. reflexivity. Qed.
Lemma csv_app F text ents rows ents' : is_csv_of F text ents -> (forall re, In re rows -> In (snd re) line_ends) ->
  Forall2 (fun re ke => row_is F (fst re) ke) rows ents' ->
  is_csv_of F (text +++ sconcat (fun re => row_text_of (fst re) +++ snd re) rows) (ents ++ ents').
Proof.
  intros [e0 [r0 [-> [H1 [H2 H3]]]]] L A. exists e0, (r0 ++ rows). split; [|split; [exact H1|split]].
  - unfold csv_file. rewrite !sapp_assoc, sconcat_both. reflexivity.
  - intros re I. apply in_app_iff in I. destruct I as [I|I]; [exact (H2 re I)|exact (L re I)].
  - apply Forall2_app; assumption.
Qed.
Definition own_names : list string :=
  ["DateCreated"; "DateModified"; "APIName"; "APIVersion"; "ApplicationName"; "ApplicationVersion"].
Definition own_row (s : string) : row := Row ("GLOBAL:" +++ s) "" "m" "" "attribute" "set by the program".
Definition own_entry (s : string) : string * dict cell :=
  ("GLOBAL:" +++ s, [("default", txt ""); ("flags", txt "m"); ("dimensions", None); ("type", txt "attribute"); ("comment", txt "set by the program")]).
Definition full_text : string :=
  csv_file crlf (map (fun r => (r, nl)) demo_rows) +++ sconcat (fun re => row_text_of (fst re) +++ snd re) (map (fun s => (own_row s, nl)) own_names).
Definition full_ents : dict (dict cell) := demo_ents ++ map own_entry own_names.
Definition full_dir : cdir := CDir [("TestRoom_2.1.csv", full_text)] [].
Definition full_compiled : cdir := fst (compile_conventions demo_flt full_dir).
Definition full_env : env :=
  Env (match library full_compiled with Some l => l | None => [] end) (rules demo) (aliases demo) (deprecations demo)
      (upgrades demo) (str_of demo) (type_of demo) (now demo) (sofar_version demo) (python_version demo).
Definition full_sofa : sofa := match snd (sofa_init full_env "TestRoom" false "2.1" VNo) with Ok o => o | Err _ => empty_sofa end.

Lemma full_csv : is_csv_of demo_flt full_text full_ents.
Proof.
  apply csv_app; [apply (proj1 C82_case)| |].
  - intros re I. apply in_map_iff in I. destruct I as [r [<- _]]. left. reflexivity.
  - assert (CE : forall r, In r (map own_row own_names) -> forall s c, In s (row_cells r) -> In c [TAB; NL; CR] -> has_char c s = false).
    { assert (B : forallb (fun r => forallb (fun s => forallb (fun c => negb (has_char c s)) [TAB; NL; CR]) (row_cells r)) (map own_row own_names) = true) by (vm_compute; reflexivity).
      intros r IR s c IS IC. rewrite forallb_forall in B. specialize (B r IR). rewrite forallb_forall in B. specialize (B s IS).
      rewrite forallb_forall in B. specialize (B c IC). apply negb_true_iff in B. exact B. }
    assert (WN : forall s, In s own_names -> word demo_flt ("GLOBAL:" +++ s)).
    { intros s I. cbn [In own_names] in I. destruct I as [<-|[<-|[<-|[<-|[<-|[<-|[]]]]]]]; word_tac "G"%char. }
    assert (W1 : word demo_flt "m") by word_tac "m"%char. assert (W2 : word demo_flt "attribute") by word_tac "a"%char.
    assert (W3 : word demo_flt "set by the program") by word_tac "s"%char.
    assert (ALL : forall l, incl l own_names -> Forall2 (fun re ke => row_is demo_flt (fst re) ke) (map (fun s => (own_row s, nl)) l) (map own_entry l)).
    { induction l as [|s l IH]; intro J; [constructor|]. cbn [map]. constructor; [|apply IH; intros x I; apply J; right; exact I].
      assert (I : In s own_names) by (apply J; left; reflexivity). cbn [fst]. constructor.
      - apply CE. apply in_map. exact I.
      - split; [exact (WN s I)|reflexivity].
      - exists None, (VStr false ""), (txt "m"), None, (VStr false "attribute"), (txt "set by the program").
        split; [apply (ci_blank demo_flt 0%nat)|]. split; [constructor|]. split; [apply demo_word_cell, W1|]. split; [apply (ci_blank demo_flt 0%nat)|].
        split; [apply (demo_word_cell "attribute"), W2|]. split; [apply demo_word_cell, W3|reflexivity]. }
    apply ALL. intros x I. exact I.
Qed.
Lemma full_env_ok : db_ok full_env.
Proof.
  assert (E : exists cv, db full_env = [("TestRoom_2.1.json", cv)] /\ file_ok ("TestRoom_2.1.json", cv)).
  { eexists. split; [vm_compute; reflexivity|].
    exists "TestRoom", "2.1". split; [reflexivity|]. split; [reflexivity|]. split; [reflexivity|]. split; [vm_compute; reflexivity|]. split; [discriminate|].
    split; [vm_compute; intro H; decompose [or] H; try discriminate; assumption|].
    split; (eexists; exists false; split; [vm_compute; reflexivity|split; [vm_compute; reflexivity|split; vm_compute; reflexivity]]). }
  destruct E as [cv [E OK]]. split; rewrite E.
  - constructor; [intros []|constructor].
  - intros f [<-|[]]. exact OK.
Qed.

Example C105_case :
  compile_conventions demo_flt full_dir = (full_compiled, Ok tt) /\
  dget "TestRoom_2.1.csv" (csvs full_dir) = Some full_text /\ is_csv_of demo_flt full_text full_ents /\
  NoDup (map python_name (dkeys full_ents)) /\
  (forall k, In k (dkeys (creation_entries full_env)) -> In k (map python_name (dkeys full_ents))) /\
  library full_compiled = Some (db full_env) /\ db_ok full_env /\
  snd (sofa_init full_env "TestRoom" false "2.1" VNo) = Ok full_sofa /\
  dget "GLOBAL_Version" (pub full_sofa) = Some (VStr false "2.1") /\
  m_out (info full_env "data" full_sofa) = [outdated; EvPrint ("TestRoom 2.1 (SOFA version 2.1)" +++ nl +++ "--------------------------------" +++ nl
     +++ "showing data entries : type (shape), flags" +++ nl +++ nl
     +++ "ReceiverPosition : double (RCI, RCM), mandatory" +++ nl
     +++ "Words : string (MS), optional" +++ nl
     +++ "Data_IR : double (MRN), mandatory" +++ nl +++ "    impulse response" +++ nl)] /\
  m_out (info full_env "GLOBAL_APIName" full_sofa) = [outdated; EvPrint ("TestRoom 2.1 (SOFA version 2.1)" +++ nl +++ "--------------------------------" +++ nl
     +++ "GLOBAL_APIName" +++ nl +++ "    type: attribute" +++ nl +++ "    mandatory: True" +++ nl +++ "    read only: False" +++ nl
     +++ "    default: " +++ nl +++ "    shape: NONE" +++ nl +++ "    comment: set by the program" +++ nl)].
Proof.
  split; [vm_compute; reflexivity|]. split; [reflexivity|]. split; [exact full_csv|]. split.
  { assert (ND : forall l : list string, (fix nd l := match l with [] => true | x :: l => negb (smem x l) && nd l end) l = true -> NoDup l).
    { induction l as [|x l IH]; intro H; [constructor|]. apply andb_true_iff in H. destruct H as [H1 H2]. constructor; [|apply IH, H2].
      intro I. apply smem_In in I. rewrite I in H1. discriminate H1. }
    apply ND. vm_compute. reflexivity. }
  split.
  { intros k I. assert (B : forallb (fun k => smem k (map python_name (dkeys full_ents))) (dkeys (creation_entries full_env)) = true) by (vm_compute; reflexivity).
    rewrite forallb_forall in B. apply smem_In. exact (B k I). }
  split; [vm_compute; reflexivity|]. split; [exact full_env_ok|].
  split; [vm_compute; reflexivity|]. split; [vm_compute; reflexivity|]. split; vm_compute; reflexivity.
Qed.

(** ** The title of inspect (C56) *)

(** Whatever the issue handling, inspect shows the convention, its version and the version of
    SOFA of the object in the first line, underlined. *)
Theorem C56_title :
  forall E h o o' ev c v sv b1 b2, inspect E h o = (o', ev, Ok tt) ->
  dget "GLOBAL_SOFAConventions" (pub o) = Some (VStr b1 c) ->
  dget "GLOBAL_SOFAConventionsVersion" (pub o) = Some (VStr b2 v) -> dget "GLOBAL_Version" (pub o) = Some sv ->
  exists before rest, ev = before ++ [EvPrint (title c v (py_str E sv) +++ rest)].
Proof.
  intros E h o o' ev c v sv b1 b2 H G1 G2 G3. unfold inspect in H.
  apply bind_Ok in H. destruct H as [o1 [e1 [r [e2 [HV [H ->]]]]]]. rewrite bind_get in H.
  assert (K := verify_keeps E h VWrite o). rewrite HV in K. cbn [m_obj fst] in K.
  destruct (title_header E c v sv o1 b1 b2 (K _ _ G1) (K _ _ G2) (K _ _ G3)) as [hd [HD T]].
  rewrite HD in H. apply bind_Ok in H. destruct H as [o2 [e3 [hd' [e4 [HL [H ->]]]]]].
  unfold lift in HL. injection HL as <- <- ->.
  apply bind_Ok in H. destruct H as [o2 [e5 [txt [e6 [HL [H ->]]]]]].
  unfold lift in HL. destruct (rconcat (inspect_entry E o1) (pub o1)) as [t|x]; [|discriminate HL]. injection HL as <- <- ->.
  unfold emit in H. injection H as <- <-. exists e1, txt. rewrite <- T, !sapp_assoc. reflexivity.
Qed.
Print Assumptions C56_title.

Example C56_title_case :
  is_ok (m_res (inspect demo HRaise demo_sofa)) = true
  /\ title "SimpleFreeFieldHRIR" "1.0" "2.1" = "SimpleFreeFieldHRIR 1.0 (SOFA version 2.1)" +++ nl +++ "-------------------------------------------" +++ nl
  /\ dget "GLOBAL_Version" (pub demo_sofa) = Some (VStr false "2.1").
Proof. split; [vm_compute; reflexivity|]. split; vm_compute; reflexivity. Qed.
