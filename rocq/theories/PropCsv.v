(** From csv files to objects (C82, C83). *)
From Verif Require Import Base PyStr PyNum NdArray Sofa Verify UpdateConv Library Demo
  SpecAttr SpecInit SpecListing SpecUpdate SpecVerify SpecCsv
  BaseFacts StrFacts AttrFacts WriteFacts RoundFacts MissingFacts UpdateFacts CsvFacts CsvRows TotalFacts SameFacts PropInit PropListing PropUpdate.
From Coq Require Import ZArith Lia.
Open Scope string_scope.
Open Scope list_scope.

(** ** C82: Compiling a csv file gives the entries of its rows *)

(** For all files whose rows have a name, a default value, flags, dimensions, a
    type and a comment, with any of the usual line ends: the compiled
    dictionary has exactly the entries of the rows. Missing: cells with texts
    that look like numbers or lists, see [C82_refuted]. *)
Theorem C82_rows_partial : forall F text ents,
  is_csv_of F text ents -> NoDup (dkeys ents) ->
  csv2dict F text = Ok (arranged ents).
Proof. intros F text ents [e0 [rows [-> [H1 [H2 H3]]]]] ND. apply (csv_ok F e0 rows ents H1 H2 H3 ND). Qed.
Print Assumptions C82_rows_partial.

Definition demo_rows : list row :=
  [Row "Data.IR" "[0 0]" "m" "mrn" "double" "impulse response";
   Row "GLOBAL:Conventions" "SOFA" "rm" "" "attribute" "";
   Row "GLOBAL:Version" "2.1" "rm" "" "attribute" "";
   Row "GLOBAL:SOFAConventions" "TestRoom" "rm" "" "attribute" "";
   Row "GLOBAL:SOFAConventionsVersion" "2.1" "rm" "" "attribute" "";
   Row "ReceiverPosition" "[0 9 0; 0 -9 0]" "m" "rCI, rCM" "double" "";
   Row "Words" "{''}" "" "MS" "string" "";
   Row "GLOBAL:Title" " " "" " " "attribute" " "].
Definition txt (s : string) : cell := Some (VStr false s).
Definition demo_ents : dict (dict cell) :=
  [("Data.IR", [("default", Some (VList [VScal (EInt 0); VScal (EInt 0)])); ("flags", txt "m"); ("dimensions", txt "mrn"); ("type", txt "double"); ("comment", txt "impulse response")]);
   ("GLOBAL:Conventions", [("default", txt "SOFA"); ("flags", txt "rm"); ("dimensions", None); ("type", txt "attribute"); ("comment", txt "")]);
   ("GLOBAL:Version", [("default", txt "2.1"); ("flags", txt "rm"); ("dimensions", None); ("type", txt "attribute"); ("comment", txt "")]);
   ("GLOBAL:SOFAConventions", [("default", txt "TestRoom"); ("flags", txt "rm"); ("dimensions", None); ("type", txt "attribute"); ("comment", txt "")]);
   ("GLOBAL:SOFAConventionsVersion", [("default", txt "2.1"); ("flags", txt "rm"); ("dimensions", None); ("type", txt "attribute"); ("comment", txt "")]);
   ("ReceiverPosition", [("default", Some (VList [VList (map (fun z => VScal (EInt z)) [0; 9; 0]%Z); VList (map (fun z => VScal (EInt z)) [0; -9; 0]%Z)]));
      ("flags", txt "m"); ("dimensions", txt "rCI, rCM"); ("type", txt "double"); ("comment", txt "")]);
   ("Words", [("default", Some (VList [VStr false ""])); ("flags", None); ("dimensions", txt "MS"); ("type", txt "string"); ("comment", txt "")]);
   ("GLOBAL:Title", [("default", txt ""); ("flags", None); ("dimensions", None); ("type", txt "attribute"); ("comment", txt "")])].

Ltac word_tac c := split; [discriminate|split; [reflexivity|split; [reflexivity|split; [intro; (discriminate || reflexivity)|exists c; repeat split; (reflexivity || discriminate)]]]].
Lemma pad0 s : padded s s.
Proof. exists 0%nat, 0%nat. cbn [blanks append]. symmetry. apply sapp_nil_r. Qed.

Lemma demo_num z : numeral demo_flt (Z_str z) (EInt z). Proof. constructor. Qed.
Lemma demo_word_cell s : word demo_flt s -> cell_is demo_flt s (txt s).
Proof. intro W. apply (ci_word demo_flt s s W (pad0 s)). Qed.

Example C82_case :
  is_csv_of demo_flt (csv_file crlf (map (fun r => (r, nl)) demo_rows)) demo_ents /\ NoDup (dkeys demo_ents) /\
  dkeys (arranged demo_ents) = ["GLOBAL:Conventions"; "GLOBAL:Version"; "GLOBAL:SOFAConventions"; "GLOBAL:SOFAConventionsVersion"; "GLOBAL:Title"; "ReceiverPosition"; "Words"; "Data.IR"].
Proof.
  split; [|split; [|vm_compute; reflexivity]].
  2: { cbn [dkeys map fst demo_ents]. repeat (constructor; [cbn [In]; intro H; decompose [or] H; try discriminate; assumption|]). constructor. }
  exists crlf, (map (fun r => (r, nl)) demo_rows). split; [reflexivity|]. split; [right; right; left; reflexivity|].
  split; [intros re I; apply in_map_iff in I; destruct I as [r [<- _]]; left; reflexivity|].
  assert (CE : forall r, In r demo_rows -> forall s c, In s (row_cells r) -> In c [TAB; NL; CR] -> has_char c s = false).
  { assert (B : forallb (fun r => forallb (fun s => forallb (fun c => negb (has_char c s)) [TAB; NL; CR]) (row_cells r)) demo_rows = true) by (vm_compute; reflexivity).
    intros r IR s c IS IC. rewrite forallb_forall in B. specialize (B r IR). rewrite forallb_forall in B. specialize (B s IS).
    rewrite forallb_forall in B. specialize (B c IC). apply negb_true_iff in B. exact B. }
  assert (BL : forall n, cell_is demo_flt (blanks n) None) by (intro n; constructor).
  assert (W1 : forall s, In s ["m"; "rm"; "mrn"; "double"; "attribute"; "string"; "MS"; "rCI, rCM"; "impulse response"; "Data.IR"; "GLOBAL:Conventions"; "GLOBAL:Version"; "ReceiverPosition"; "Words"; "GLOBAL:Title"; "SOFA"; "TestRoom"; "GLOBAL:SOFAConventions"; "GLOBAL:SOFAConventionsVersion"; "{''}"] -> word demo_flt s).
  { intros s I. cbn [In] in I.
    destruct I as [<-|[<-|[<-|[<-|[<-|[<-|[<-|[<-|[<-|[<-|[<-|[<-|[<-|[<-|[<-|[<-|[<-|[<-|[<-|[<-|[]]]]]]]]]]]]]]]]]]]]];
    [word_tac "m"%char|word_tac "m"%char|word_tac "m"%char|word_tac "d"%char|word_tac "a"%char|word_tac "s"%char|word_tac "M"%char|word_tac "C"%char
    |word_tac "i"%char|word_tac "D"%char|word_tac "G"%char|word_tac "G"%char|word_tac "R"%char|word_tac "W"%char|word_tac "G"%char|word_tac "S"%char|word_tac "T"%char|word_tac "G"%char|word_tac "G"%char|word_tac "{"%char]. }
  assert (WC : forall s, In s ["m"; "rm"; "mrn"; "double"; "attribute"; "string"; "MS"; "rCI, rCM"; "impulse response"; "Data.IR"; "GLOBAL:Conventions"; "GLOBAL:Version"; "ReceiverPosition"; "Words"; "GLOBAL:Title"; "SOFA"; "TestRoom"; "GLOBAL:SOFAConventions"; "GLOBAL:SOFAConventionsVersion"; "{''}"] -> cell_is demo_flt s (txt s))
    by (intros s I; apply demo_word_cell, W1, I).
  assert (DT : forall name s, dget s code_defaults = None -> default_is demo_flt name (txt s) (VStr false s)) by (intros; constructor; assumption).
  cbn [map demo_rows demo_ents].
  constructor; [|constructor; [|constructor; [|constructor; [|constructor; [|constructor; [|constructor; [|constructor; [|constructor]]]]]]]].
  - constructor; [apply CE; cbn [In demo_rows]; tauto|split; [apply W1; cbn [In w_name fst]; tauto|reflexivity]|].
    exists (Some (elts [EInt 0; EInt 0])), (elts [EInt 0; EInt 0]), (txt "m"), (txt "mrn"), (VStr false "double"), (txt "impulse response").
    split; [|split; [apply di_list; reflexivity|]].
    + apply (ci_list demo_flt "0 0" [EInt 0; EInt 0]); [|apply pad0]. apply (rows_one _ "0 0" "0 0"); [|apply pad0].
      apply (row_more _ "0" _ " " "0" _ (demo_num 0)); [auto|]. apply row_one, (demo_num 0).
    + split; [apply WC; cbn; tauto|]. split; [apply WC; cbn; tauto|]. split; [apply (WC "double"); cbn; tauto|].
      split; [apply WC; cbn; tauto|]. reflexivity.
  - constructor; [apply CE; cbn [In demo_rows]; tauto|split; [apply W1; cbn [In w_name fst]; tauto|reflexivity]|].
    exists (txt "SOFA"), (VStr false "SOFA"), (txt "rm"), None, (VStr false "attribute"), None.
    split; [apply WC; cbn; tauto|]. split; [apply DT; reflexivity|]. split; [apply WC; cbn; tauto|]. split; [apply (BL 0%nat)|].
    split; [apply (WC "attribute"); cbn; tauto|]. split; [apply (BL 0%nat)|reflexivity].
  - constructor; [apply CE; cbn [In demo_rows]; tauto|split; [apply W1; cbn [In w_name fst]; tauto|reflexivity]|].
    exists (Some (VScal (EFlt (S754_finite false 4728779608739021 (-51))))), (VStr false "2.1"), (txt "rm"), None, (VStr false "attribute"), None.
    split; [apply (ci_number demo_flt "2.1"); [apply num_flt; reflexivity|reflexivity|apply pad0]|].
    split; [apply (di_version_flt demo_flt _ (S754_finite false 4728779608739021 (-51))); reflexivity|]. split; [apply WC; cbn; tauto|]. split; [apply (BL 0%nat)|].
    split; [apply (WC "attribute"); cbn; tauto|]. split; [apply (BL 0%nat)|reflexivity].
  - constructor; [apply CE; cbn [In demo_rows]; tauto|split; [apply W1; cbn [In w_name fst]; tauto|reflexivity]|].
    exists (txt "TestRoom"), (VStr false "TestRoom"), (txt "rm"), None, (VStr false "attribute"), None.
    split; [apply WC; cbn; tauto|]. split; [apply DT; reflexivity|]. split; [apply WC; cbn; tauto|]. split; [apply (BL 0%nat)|].
    split; [apply (WC "attribute"); cbn; tauto|]. split; [apply (BL 0%nat)|reflexivity].
  - constructor; [apply CE; cbn [In demo_rows]; tauto|split; [apply W1; cbn [In w_name fst]; tauto|reflexivity]|].
    exists (Some (VScal (EFlt (S754_finite false 4728779608739021 (-51))))), (VStr false "2.1"), (txt "rm"), None, (VStr false "attribute"), None.
    split; [apply (ci_number demo_flt "2.1"); [apply num_flt; reflexivity|reflexivity|apply pad0]|].
    split; [apply (di_version_flt demo_flt _ (S754_finite false 4728779608739021 (-51))); reflexivity|]. split; [apply WC; cbn; tauto|]. split; [apply (BL 0%nat)|].
    split; [apply (WC "attribute"); cbn; tauto|]. split; [apply (BL 0%nat)|reflexivity].
  - constructor; [apply CE; cbn [In demo_rows]; tauto|split; [apply W1; cbn [In w_name fst]; tauto|reflexivity]|].
    exists (Some (VList [elts [EInt 0; EInt 9; EInt 0]; elts [EInt 0; EInt (-9); EInt 0]])), (VList [elts [EInt 0; EInt 9; EInt 0]; elts [EInt 0; EInt (-9); EInt 0]]),
      (txt "m"), (txt "rCI, rCM"), (VStr false "double"), None.
    split; [|split; [apply di_list; reflexivity|]].
    + apply (ci_table demo_flt "0 9 0; 0 -9 0" [[EInt 0; EInt 9; EInt 0]; [EInt 0; EInt (-9); EInt 0]]); [cbn; lia| |apply pad0].
      apply (rows_more _ "0 9 0" "0 9 0" _ " 0 -9 0" [[EInt 0; EInt (-9); EInt 0]]); [|apply pad0|].
      * apply (row_more _ "0" _ " " "9 0" _ (demo_num 0)); [auto|]. apply (row_more _ "9" _ " " "0" _ (demo_num 9)); [auto|]. apply row_one, (demo_num 0).
      * apply (rows_one _ "0 -9 0"); [|exists 1%nat, 0%nat; reflexivity].
        apply (row_more _ "0" _ " " "-9 0" _ (demo_num 0)); [auto|]. apply (row_more _ "-9" _ " " "0" _ (demo_num (-9))); [auto|]. apply row_one, (demo_num 0).
    + split; [apply WC; cbn; tauto|]. split; [apply WC; cbn; tauto|]. split; [apply (WC "double"); cbn; tauto|]. split; [apply (BL 0%nat)|reflexivity].
  - constructor; [apply CE; cbn [In demo_rows]; tauto|split; [apply W1; cbn [In w_name fst]; tauto|reflexivity]|].
    exists (txt "{''}"), (VList [VStr false ""]), None, (txt "MS"), (VStr false "string"), None.
    split; [apply WC; cbn; tauto|]. split; [apply di_code; reflexivity|]. split; [apply (BL 0%nat)|]. split; [apply WC; cbn; tauto|].
    split; [apply (WC "string"); cbn; tauto|]. split; [apply (BL 0%nat)|reflexivity].
  - constructor; [apply CE; cbn [In demo_rows]; tauto|split; [apply W1; cbn [In w_name fst]; tauto|reflexivity]|].
    exists None, (VStr false ""), None, None, (VStr false "attribute"), None.
    split; [apply (BL 1%nat)|]. split; [constructor|]. split; [apply (BL 0%nat)|]. split; [apply (BL 1%nat)|].
    split; [apply (WC "attribute"); cbn; tauto|]. split; [apply (BL 1%nat)|reflexivity].
Qed.

(** A comment that starts with a bracket makes the file unreadable, a comment
    that consists of digits becomes a number. *)
Theorem C82_refuted :
  csv2dict demo_flt (csv_file nl [(Row "Azimuth" "0" "m" "M" "double" "[degree], clockwise", nl)]) = Err parse_error /\
  (exists conv e, csv2dict demo_flt (csv_file nl [(Row "Azimuth" "0" "m" "M" "double" "2024", nl)]) = Ok conv
     /\ dget "Azimuth" conv = Some e /\ dget "comment" e = Some (Some (VScal (EInt 2024)))).
Proof. split; [vm_compute; reflexivity|]. do 2 eexists. split; [vm_compute; reflexivity|]. split; vm_compute; reflexivity. Qed.
Print Assumptions C82_refuted.

(** ** C83: From the csv file to the object *)

Lemma omap_in {A B} (f : A -> option B) l : forall r, omap f l = Some r ->
  forall x, In x l -> exists y, f x = Some y /\ In y r.
Proof.
  induction l as [|a l IH]; intros r H x []; cbn [omap] in H.
  - subst a. destruct (f x) as [y|]; [|discriminate H]. destruct (omap f l) as [t|]; [|discriminate H].
    injection H as <-. exists y. split; [reflexivity|left; reflexivity].
  - destruct (f a) as [y|]; [|discriminate H]. destruct (omap f l) as [t|]; [|discriminate H].
    injection H as <-. destruct (IH t eq_refl x H0) as [z [Z1 Z2]]. exists z. split; [exact Z1|right; exact Z2].
Qed.

Lemma entry_fields fields e : entry_of_json fields = Some e -> fields_of fields e.
Proof.
  unfold entry_of_json. intro H.
  destruct (dget "default" fields) as [[d|]|] eqn:D; try discriminate H.
  destruct (dget "flags" fields) as [f|] eqn:DF; try discriminate H.
  destruct (dget "dimensions" fields) as [m|] eqn:DM; try discriminate H.
  destruct (dget "type" fields) as [t|] eqn:DT; try discriminate H.
  destruct (dget "comment" fields) as [c|] eqn:DC; try discriminate H.
  assert (TC : forall x y, text_cell x = Some y -> y = match x with Some (VStr _ s) => Some s | _ => None end).
  { intros [[b s| | |]|] y T; cbn in T; try discriminate T; injection T as <-; reflexivity. }
  destruct (text_cell f) as [f'|] eqn:Tf; try discriminate H.
  destruct (text_cell m) as [m'|] eqn:Tm; try discriminate H.
  destruct (text_cell t) as [[t'|]|] eqn:Tt; try discriminate H.
  destruct (text_cell c) as [c'|] eqn:Tc; try discriminate H.
  injection H as <-. constructor; cbn [e_default e_flags e_dims e_type e_comment].
  - exact D.
  - exists f. split; [exact DF|apply TC, Tf].
  - exists m. split; [exact DM|apply TC, Tm].
  - destruct t as [[b s| | |]|]; cbn in Tt; try discriminate Tt. injection Tt as <-. exists b. exact DT.
  - exists c. split; [exact DC|apply TC, Tc].
Qed.

Lemma arranged_In {A} (d : dict A) ke : In ke (arranged d) <-> In ke d.
Proof.
  unfold arranged. rewrite !in_app_iff, !filter_In.
  destruct (is_global (fst ke)), (is_data (fst ke)); cbn; intuition congruence.
Qed.
Lemma arranged_NoDup {A B} (g : string -> B) (d : dict A) : NoDup (map g (dkeys d)) -> NoDup (map g (dkeys (arranged d))).
Proof.
  intro ND. unfold arranged, dkeys. rewrite !map_app.
  assert (K : forall l : dict A, map g (map fst l) = map (fun ke => g (fst ke)) l) by (intro; apply map_map).
  unfold dkeys in ND. rewrite K in ND. rewrite !K.
  assert (NF : forall f, NoDup (map (fun ke : string * A => g (fst ke)) (filter f d))).
  { intro f. clear -ND. induction d as [|x d IH]; [constructor|]. cbn [map] in ND. apply NoDup_cons_iff in ND. destruct ND as [N1 N2].
    cbn [filter]. destruct (f x); [|apply IH, N2]. cbn [map]. constructor; [|apply IH, N2].
    intro I. apply N1. apply in_map_iff in I. destruct I as [y [E I]]. apply filter_In in I. apply in_map_iff. exists y. split; [exact E|apply I]. }
  assert (UN : forall x y, In x d -> In y d -> g (fst x) = g (fst y) -> x = y).
  { clear -ND. induction d as [|a d IH]; intros x y [] []; intro E; subst; try reflexivity;
    cbn [map] in ND; apply NoDup_cons_iff in ND; destruct ND as [N1 N2].
    - exfalso. apply N1. rewrite E. apply in_map_iff. exists y. split; [reflexivity|assumption].
    - exfalso. apply N1. rewrite <- E. apply in_map_iff. exists x. split; [reflexivity|assumption].
    - apply IH; assumption. }
  apply NoDup_app_intro; [apply NF|apply NoDup_app_intro; [apply NF|apply NF|]|].
  - intros k I J. apply in_map_iff in I. destruct I as [x [<- I]]. apply in_map_iff in J. destruct J as [y [E J]].
    apply filter_In in I. apply filter_In in J. destruct I as [I1 I2], J as [J1 J2].
    rewrite (UN y x J1 I1 E) in J2. rewrite J2, andb_false_r in I2. discriminate I2.
  - intros k I J. apply in_map_iff in I. destruct I as [x [<- I]]. apply in_app_iff in J.
    apply filter_In in I. destruct I as [I1 I2]. destruct J as [J|J]; apply in_map_iff in J; destruct J as [y [E J]];
    apply filter_In in J; destruct J as [J1 J2]; rewrite (UN y x J1 I1 E) in J2.
    + destruct (is_global (fst x)); [discriminate J2|discriminate I2].
    + rewrite J2, andb_false_r in I2. discriminate I2.
Qed.

Lemma convention_keys j : forall cv, convention_of_json j = Some cv ->
  Forall2 (fun kf ke => fst ke = fst kf /\ fields_of (snd kf) (snd ke)) j cv.
Proof.
  unfold convention_of_json. induction j as [|[k f] j IH]; intros cv H; cbn [omap fst snd] in H.
  - injection H as <-. constructor.
  - destruct (entry_of_json f) as [e|] eqn:G; cbn [option_map] in H; [|discriminate H].
    destruct (omap _ j) as [t|]; [|discriminate H]. injection H as <-.
    constructor; [split; [reflexivity|apply entry_fields, G]|apply IH; reflexivity].
Qed.
Lemma keys_same {A B} (P : A -> B -> Prop) (j : dict A) (cv : dict B) :
  Forall2 (fun kf ke => fst ke = fst kf /\ P (snd kf) (snd ke)) j cv -> dkeys cv = dkeys j.
Proof. intro H. unfold dkeys. induction H as [|x y l m [E _] _ IH]; [reflexivity|]. cbn [map]. rewrite E, IH. reflexivity. Qed.
Lemma keys_fwd {A B} (P : A -> B -> Prop) (j : dict A) (cv : dict B) :
  Forall2 (fun kf ke => fst ke = fst kf /\ P (snd kf) (snd ke)) j cv ->
  forall k f, In (k, f) j -> exists e, In (k, e) cv /\ P f e.
Proof.
  intro H. induction H as [|[k1 f1] [k2 e2] l m [E Q] _ IH]; intros k f []; cbn [fst snd] in *.
  - injection H as -> ->. subst k2. exists e2. split; [left; reflexivity|exact Q].
  - destruct (IH k f H) as [e [I R]]. exists e. split; [right; exact I|exact R].
Qed.

Lemma no_dot x s : x <> "" -> startswith "." x = false -> startswith "." (x +++ s) = false.
Proof.
  intros NE H. destruct x as [|a x]; [contradiction|]. unfold startswith in *. cbn [append].
  change (String.prefix "." (String a (x +++ s))) with (if ascii_dec "." a then String.prefix "" (x +++ s) else false).
  change (String.prefix "." (String a x)) with (if ascii_dec "." a then String.prefix "" x else false) in H.
  destruct (ascii_dec "." a); [|reflexivity]. destruct x; discriminate H.
Qed.

(** the two places for convention files *)
Definition places : list string := [""; "deprecated/"].

Lemma csv_listed d dir x text : In dir places -> has_char "/" x = false -> startswith "." x = false -> x <> "" ->
  dget (dir +++ x +++ ".csv") (csvs d) = Some text -> In (dir +++ x +++ ".csv") (csv_files d).
Proof.
  intros ID HS HD NE G. assert (T : top_csv (x +++ ".csv") = true).
  { unfold top_csv. rewrite (proj2 (RoundFacts.endswith_iff ".csv" _) (ex_intro _ x eq_refl)), has_char_app, HS.
    rewrite (no_dot x _ NE HD). reflexivity. }
  assert (I : In (dir +++ x +++ ".csv") (dkeys (csvs d))) by (apply dget_Some_In; eauto).
  unfold csv_files. apply in_app_iff. rewrite !filter_In.
  destruct ID as [<-|[<-|[]]]; [left; split; [exact I|exact T]|right; split; [exact I|]].
  unfold dep_csv. rewrite (proj2 (prefix_spec _ _) (ex_intro _ _ eq_refl)).
  change 11 with (String.length "deprecated/"). rewrite sdrop_app. exact T.
Qed.

Lemma json_listed d lib dir x j : In dir places -> has_char "/" x = false -> startswith "." x = false -> x <> "" ->
  dget (dir +++ x +++ ".json") (jsons d) = Some j -> library d = Some lib ->
  exists cv, convention_of_json j = Some cv /\ In (x +++ ".json", cv) lib.
Proof.
  intros ID HS HD NE G L. assert (T : top_json (x +++ ".json") = true).
  { unfold top_json. rewrite (proj2 (RoundFacts.endswith_iff ".json" _) (ex_intro _ x eq_refl)), has_char_app, HS.
    rewrite (no_dot x _ NE HD). reflexivity. }
  assert (I : In (dir +++ x +++ ".json") (dkeys (jsons d))) by (apply dget_Some_In; eauto).
  unfold library in L.
  destruct (omap _ (filter top_json _)) as [a|] eqn:O1; [|discriminate L].
  destruct (omap _ (filter dep_json _)) as [b|] eqn:O2; [|discriminate L]. injection L as <-.
  destruct ID as [<-|[<-|[]]].
  - destruct (omap_in _ _ _ O1 (x +++ ".json")) as [y [Y1 Y2]]; [apply filter_In; split; [exact I|exact T]|].
    cbv beta in Y1. unfold json_file in Y1. cbn [append] in G. rewrite G in Y1.
    destruct (convention_of_json j) as [cv|]; [|discriminate Y1]. injection Y1 as <-.
    exists cv. split; [reflexivity|apply in_app_iff; left; exact Y2].
  - destruct (omap_in _ _ _ O2 ("deprecated/" +++ x +++ ".json")) as [y [Y1 Y2]].
    { apply filter_In. split; [exact I|]. unfold dep_json. rewrite (proj2 (prefix_spec _ _) (ex_intro _ _ eq_refl)).
      change 11 with (String.length "deprecated/"). rewrite sdrop_app. exact T. }
    cbv beta in Y1. unfold json_file in Y1. rewrite G in Y1.
    assert (ED : sdrop 11 ("deprecated/" +++ x +++ ".json") = x +++ ".json") by (apply (sdrop_app "deprecated/")).
    rewrite ED in Y1. destruct (convention_of_json j) as [cv|]; [|discriminate Y1]. injection Y1 as <-.
    exists cv. split; [reflexivity|apply in_app_iff; right; exact Y2].
Qed.

Lemma compiled_file F d d' dir c v text ents E :
  compile_conventions F d = (d', Ok tt) ->
  In dir places -> has_char "/" (c +++ "_" +++ v) = false -> startswith "." (c +++ "_" +++ v) = false ->
  dget (dir +++ c +++ "_" +++ v +++ ".csv") (csvs d) = Some text ->
  is_csv_of F text ents -> NoDup (dkeys ents) -> library d' = Some (db E) ->
  exists cv, convention_of_json (arranged ents) = Some cv /\ has_file E c v cv.
Proof.
  intros HC ID HS HD G CSV ND0 HL.
  set (x := c +++ "_" +++ v). assert (NE : x <> "") by (unfold x; destruct c; discriminate).
  assert (EX : forall s, dir +++ c +++ "_" +++ v +++ s = dir +++ x +++ s) by (intro s; unfold x; rewrite !sapp_assoc; reflexivity).
  rewrite EX in G. assert (IL := csv_listed d dir x text ID HS HD NE G).
  destruct (compile_files_Ok F _ d d' (csv_files_inj d) HC) as [C1 _].
  destruct (C1 _ IL) as [t [j [G' [CJ GJ]]]]. rewrite G in G'. injection G' as <-.
  rewrite (C82_rows_partial F text ents CSV ND0) in CJ. injection CJ as <-.
  assert (EJ : json_name (dir +++ x +++ ".csv") = dir +++ x +++ ".json").
  { rewrite <- !sapp_assoc. apply json_name_csv. }
  rewrite EJ in GJ. destruct (json_listed d' (db E) dir x _ ID HS HD NE GJ HL) as [cv [CV IN]].
  exists cv. split; [exact CV|]. unfold has_file, file_name. unfold x in IN. rewrite !sapp_assoc in IN. exact IN.
Qed.

(** An object created from a convention whose csv file was compiled has, for
    each row, the default value of the row, and nothing else (besides the six
    entries that are written at creation). The rows may be in the main or in the
    deprecated directory. *)
Theorem C83_csv_to_object :
  forall F d d' dir c v text ents E mandatory vo ev o,
  compile_conventions F d = (d', Ok tt) ->
  In dir places -> has_char "/" (c +++ "_" +++ v) = false -> startswith "." (c +++ "_" +++ v) = false -> v <> "latest" ->
  dget (dir +++ c +++ "_" +++ v +++ ".csv") (csvs d) = Some text ->
  is_csv_of F text ents -> NoDup (map python_name (dkeys ents)) ->
  library d' = Some (db E) -> db_ok E ->
  sofa_init E c mandatory v vo = (ev, Ok o) ->
  (forall name fields, In (name, fields) ents -> ~ In (python_name name) (dkeys (creation_entries E)) ->
     exists e, fields_of fields e /\
       (if is_mandatory (e_flags e) || negb mandatory
        then exists w, dget (python_name name) (pub o) = Some w /\ holds_default e w
        else dget (python_name name) (pub o) = None))
  /\ (forall k, contained o k -> In k (dkeys (creation_entries E)) \/ In k (map python_name (dkeys ents))).
Proof.
  intros F d d' dir c v text ents E mandatory vo ev o HC ID HS HD NL G CSV ND HL DB SI.
  assert (ND0 : NoDup (dkeys ents)) by (eapply NoDup_map_inv; exact ND).
  destruct (compiled_file F d d' dir c v text ents E HC ID HS HD G CSV ND0 HL) as [cv [CV HF]].
  destruct (C24_new_object_content E c mandatory v vo ev o DB SI) as [v' [ct [HF' [EV [NC _]]]]].
  rewrite (EV NL) in HF'. rewrite <- (file_unique E c v cv ct DB HF HF') in NC. clear HF' ct.
  assert (FA := convention_keys _ _ CV). assert (KS := keys_same _ _ _ FA).
  assert (NDc : NoDup (map python_name (dkeys cv))) by (rewrite KS; apply arranged_NoDup, ND).
  assert (SK := sofar_keys_all cv NDc). split.
  - intros name fields I NI. apply arranged_In in I. destruct (keys_fwd _ _ _ FA name fields I) as [e [IE FE]].
    exists e. split; [exact FE|]. assert (N := NC (python_name name)).
    destruct (creation_lookup E (python_name name)) as [X|X]; [contradiction|]. rewrite X in N.
    assert (GE : dget (python_name name) (sofar_keys cv) = Some e).
    { rewrite SK. apply In_dget.
      - unfold dkeys. rewrite map_map. cbn. unfold dkeys in NDc. rewrite map_map in NDc. exact NDc.
      - apply in_map_iff. exists (name, e). split; [reflexivity|exact IE]. }
    rewrite GE in N. exact N.
  - intros k K. unfold contained in K. assert (N := NC k).
    destruct (creation_lookup E k) as [X|X]; [left; exact X|right]. rewrite X in N.
    destruct (dget k (sofar_keys cv)) as [e|] eqn:GE.
    + assert (I : In k (dkeys (sofar_keys cv))) by (apply dget_Some_In; eauto).
      rewrite SK in I. unfold dkeys in I. rewrite map_map in I. cbn in I. apply in_map_iff in I. destruct I as [[n e'] [<- I]].
      apply in_map_iff. exists n. split; [reflexivity|]. assert (J : In n (dkeys cv)) by (apply in_map_iff; exists (n, e'); split; [reflexivity|exact I]).
      rewrite KS in J. apply in_map_iff in J. destruct J as [[n' f'] [<- J]]. apply -> (arranged_In ents) in J. apply in_map_iff. exists (n', f'). split; [reflexivity|exact J].
    + apply dget_None in N. contradiction.
Qed.
Print Assumptions C83_csv_to_object.

(** such an object can be created if no list is declared without dimensions *)
Theorem C83_can_be_created :
  forall F d d' dir c v text ents E mandatory,
  compile_conventions F d = (d', Ok tt) ->
  In dir places -> has_char "/" (c +++ "_" +++ v) = false -> startswith "." (c +++ "_" +++ v) = false ->
  dget (dir +++ c +++ "_" +++ v +++ ".csv") (csvs d) = Some text ->
  is_csv_of F text ents -> NoDup (dkeys ents) -> library d' = Some (db E) -> db_ok E -> db_creatable E ->
  exists ev o, sofa_init E c mandatory v VNo = (ev, Ok o).
Proof.
  intros F d d' dir c v text ents E mandatory HC ID HS HD G CSV ND0 HL DB DC.
  destruct (compiled_file F d d' dir c v text ents E HC ID HS HD G CSV ND0 HL) as [cv [_ HF]].
  exact (created E c v cv mandatory DB DC HF).
Qed.
Print Assumptions C83_can_be_created.

Definition csv_dir : cdir := CDir
  [("deprecated/TestRoom_2.1.csv", csv_file crlf (map (fun r => (r, nl)) demo_rows))] [].
Definition compiled_dir : cdir := fst (compile_conventions demo_flt csv_dir).
Definition test_env : env :=
  Env (match library compiled_dir with Some l => l | None => [] end) (rules demo) (aliases demo) (deprecations demo)
      (upgrades demo) (str_of demo) (type_of demo) (now demo) (sofar_version demo) (python_version demo).
Definition test_sofa := snd (sofa_init test_env "TestRoom" true "2.1" VNo).

Example C83_case :
  compile_conventions demo_flt csv_dir = (compiled_dir, Ok tt) /\
  dget "deprecated/TestRoom_2.1.csv" (csvs csv_dir) = Some (csv_file crlf (map (fun r => (r, nl)) demo_rows)) /\
  NoDup (map python_name (dkeys demo_ents)) /\
  library compiled_dir = Some (db test_env) /\ db_ok test_env /\ db_creatable test_env /\
  match test_sofa with
  | Ok o => dget "Data_IR" (pub o) = Some (VArr (Arr KI [1; 2; 1] [EInt 0; EInt 0] false))
     /\ dget "GLOBAL_SOFAConventionsVersion" (pub o) = Some (VStr false "2.1") /\ dget "Words" (pub o) = None
  | Err _ => False
  end.
Proof.
  split; [vm_compute; reflexivity|]. split; [vm_compute; reflexivity|]. split; [|split; [vm_compute; reflexivity|split; [|split; [|vm_compute; tauto]]]].
  { assert (E : map python_name (dkeys demo_ents) = ["Data_IR"; "GLOBAL_Conventions"; "GLOBAL_Version"; "GLOBAL_SOFAConventions"; "GLOBAL_SOFAConventionsVersion"; "ReceiverPosition"; "Words"; "GLOBAL_Title"]) by (vm_compute; reflexivity).
    rewrite E. repeat (constructor; [cbn [In]; intro H; decompose [or] H; try discriminate; assumption|]). constructor. }
  2: { assert (H : forallb (fun f => forallb (fun ke => negb (is_private (fst ke)) && negb (smem (fst ke) ["list_dimensions"; "protected"]) && is_ok (normalize (e_default (snd ke)))
         && match e_default (snd ke), e_dims (snd ke) with VList _, None => false | _, _ => true end)
                                        (sofar_keys (snd f))) (db test_env) = true) by (vm_compute; reflexivity).
    assert (A : forall f ke, In f (db test_env) -> In ke (sofar_keys (snd f)) -> entry_fine ke /\ (forall l, e_default (snd ke) = VList l -> e_dims (snd ke) <> None)).
    { intros f ke If Ik. rewrite forallb_forall in H. specialize (H f If). cbn beta in H. rewrite forallb_forall in H. specialize (H ke Ik). cbn beta in H.
      apply andb_true_iff in H. destruct H as [H H4]. apply andb_true_iff in H. destruct H as [H H3]. apply andb_true_iff in H. destruct H as [H1 H2].
      split; [split; [split; [apply negb_true_iff, H1|]|exact H3]|].
      - apply negb_true_iff in H2. split; intro X; rewrite X in H2; discriminate H2.
      - intros l D. rewrite D in H4. destruct (e_dims (snd ke)); [discriminate|discriminate H4]. }
    split; [intros f ke If Ik; apply (A f ke If Ik)|]. intros f ke l If Ik D. apply (proj2 (A f ke If Ik) l D). }
  assert (E : exists cv, db test_env = [("TestRoom_2.1.json", cv)] /\ file_ok ("TestRoom_2.1.json", cv)).
  { eexists. split; [vm_compute; reflexivity|].
    exists "TestRoom", "2.1". split; [reflexivity|]. split; [reflexivity|]. split; [reflexivity|]. split; [vm_compute; reflexivity|]. split; [discriminate|].
    split; [vm_compute; intro H; decompose [or] H; try discriminate; assumption|].
    split; (eexists; exists false; split; [vm_compute; reflexivity|split; [vm_compute; reflexivity|split; vm_compute; reflexivity]]). }
  destruct E as [cv [E OK]]. split; rewrite E.
  - constructor; [intros []|constructor].
  - intros f [<-|[]]. exact OK.
Qed.
