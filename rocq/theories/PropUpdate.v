(** Updating and compiling conventions (C51 to C55). *)
From Verif Require Import Base PyStr PyNum NdArray Sofa Verify UpdateConv SpecUpdate
  BaseFacts StrFacts UpdateFacts CsvFacts.
From Coq Require Import ZArith Lia.
Open Scope string_scope.
Open Scope list_scope.

(** ** A small server *)
Definition tabbed (l : list string) : string := join (str1 TAB) l.
Definition csv_text (e : string) (rows : list (list string)) : string :=
  sconcat (fun r => tabbed r +++ e) rows.
Definition header : list string := ["Name"; "Default"; "Flags"; "Dimensions"; "Type"; "Comment"].
Definition crlf : string := str1 CR +++ str1 NL.
Definition nl : string := str1 NL.

Definition rows_a : list (list string) :=
  [header; ["Data.IR"; "[0 0]"; "m"; "mrn"; "double"; "impulse response"];
   ["GLOBAL:Conventions"; "SOFA"; "rm"; ""; "attribute"; "name"];
   ["GLOBAL:Version"; "2.1"; "rm"; ""; "attribute"; "version"];
   ["ReceiverPosition"; "[0 9 0; 0 -9 0]"; "m"; "rCI, rCM"; "double"]].
Definition rows_b : list (list string) :=
  [header; ["GLOBAL:Conventions"; "SOFA"; "rm"; ""; "attribute"; "old"]].

(** a server with a new convention A, an excluded one and a deprecated B *)
Definition demo_server : server :=
  Server ["A.csv"; "General_1.csv"] ["B.csv"]
    (fun _ c => if String.eqb c "A.csv" then csv_text crlf rows_a
                else csv_text (str1 TAB +++ crlf) rows_b).
(** Python's float, only for the text "2.1" *)
Definition demo_flt : flt_env :=
  FltEnv (fun s => if String.eqb s "2.1" then Some (S754_finite false 4728779608739021 (-51)) else None)
         (fun _ => "2.1").
Definition compiled (t : string) : jconv :=
  match csv2dict demo_flt t with Ok c => c | Err _ => [] end.
(** B is still a standardized convention, C is unknown to the server *)
Definition demo_dir : cdir :=
  let b := csv_text nl rows_b in
  CDir [("B.csv", b); ("C.csv", b)] [("B.json", compiled b); ("C.json", compiled b)].

Definition updated_dir : cdir := fst (fst (update_conventions demo_flt demo_server true "" demo_dir)).

(** ** C51: Declining an update changes nothing *)
Theorem C51_declined F S response d : response <> "y" ->
  exists ev, update_conventions F S false response d = (d, ev, Ok tt).
Proof.
  intro N. unfold update_conventions, carry_out. destruct (p_updated (make_plan S d)); [|eexists; reflexivity].
  rewrite (eqb_neq_s _ _ N). eexists. reflexivity.
Qed.
Print Assumptions C51_declined.

(** the update was offered, declined, and would have changed the directory *)
Example C51_case :
  In (EvPrint msg_cancel) (snd (fst (update_conventions demo_flt demo_server false "n" demo_dir))) /\
  fst (fst (update_conventions demo_flt demo_server false "y" demo_dir)) <> demo_dir.
Proof. split; [vm_compute; tauto|]. intro E. apply (f_equal (fun d => dkeys (csvs d))) in E. vm_compute in E. discriminate E. Qed.

(** ** C53: Updating mirrors the server *)

(** Missing for the full claim: the update must complete. If it raises (for
    example since a csv file cannot be parsed) the directory is left in an
    intermediate state, see [C53_refuted]. *)
Theorem C53_mirrors_partial F S assume_yes response d d' ev :
  well_named S -> dir_ok d -> assume_yes = true \/ response = "y" ->
  update_conventions F S assume_yes response d = (d', ev, Ok tt) ->
  (* standardized conventions *)
  (forall c, offered S c -> In c (standardized S) ->
     exists t, dget c (csvs d') = Some t /\ mirrors S c (dget c (csvs d)) t) /\
  (* deprecated conventions *)
  (forall c, offered S c -> ~ In c (standardized S) ->
     dget c (csvs d') = None /\
     exists t, dget ("deprecated/" +++ c) (csvs d') = Some t /\
               mirrors S c (dget ("deprecated/" +++ c) (csvs d)) t) /\
  (* all others *)
  (forall q, (forall c, offered S c -> q <> c /\ q <> "deprecated/" +++ c) ->
     dget q (csvs d') = dget q (csvs d)).
Proof.
  intros WN W A H. assert (Q := update_csv F S WN _ _ _ _ _ W A H). split; [|split].
  - intros c O I. rewrite Q. apply (after_std S WN d c O I).
  - intros c O I. rewrite !Q. apply (after_dep S WN d c O I).
  - intros q U. rewrite Q. apply (after_unknown S d q U).
Qed.
Print Assumptions C53_mirrors_partial.

(** The json files used by sofar: every csv file is compiled, conventions that
    were deprecated are no longer listed, the files of other conventions that
    had been compiled before are as before. *)
Theorem C53_json_partial F S assume_yes response d d' ev :
  well_named S -> dir_ok d -> assume_yes = true \/ response = "y" ->
  update_conventions F S assume_yes response d = (d', ev, Ok tt) ->
  (In (EvPrint "... done.") ev -> forall q t, top_csv q = true \/ dep_csv q = true ->
     dget q (csvs d') = Some t ->
     exists cv, csv2dict F t = Ok cv /\ dget (json_name q) (jsons d') = Some cv) /\
  (forall x, offered S (x +++ ".csv") -> ~ In (x +++ ".csv") (standardized S) ->
     (dget (x +++ ".json") (jsons d) <> None -> dget (x +++ ".csv") (csvs d) <> None) ->
     dget (x +++ ".json") (jsons d') = None) /\
  (forall q t cv, (forall c, offered S c -> q <> c /\ q <> "deprecated/" +++ c) ->
     top_csv q = true \/ dep_csv q = true ->
     dget q (csvs d) = Some t -> csv2dict F t = Ok cv ->
     dget (json_name q) (jsons d) = Some cv -> dget (json_name q) (jsons d') = Some cv).
Proof.
  intros WN W A H. destruct (C53_mirrors_partial F S _ _ _ _ _ WN W A H) as [_ [HD HU]].
  assert (CF : forall q t, top_csv q = true \/ dep_csv q = true -> dget q (csvs d') = Some t -> In q (csv_files d')).
  { intros q t T G. assert (K : In q (dkeys (csvs d'))) by (apply dget_Some_In; eauto).
    unfold csv_files. apply in_or_app. destruct T as [T|T]; [left|right]; apply filter_In; auto. }
  destruct (p_updated (make_plan S d)) eqn:U.
  - destruct (update_json F S WN _ _ _ _ _ W A H U) as [J1 J2]. split; [|split].
    + intros _ q t T G. destruct (J1 q (CF q t T G)) as [t' [cv [G' [C J]]]]. exists cv.
      rewrite G in G'. injection G' as <-. auto.
    + intros x O NS CO. destruct (HD _ O NS) as [NC _]. rewrite <- json_name_csv. rewrite J2.
      * destruct (existsb _ _) eqn:E; [reflexivity|]. rewrite json_name_csv.
        destruct (dget (x +++ ".json") (jsons d)) eqn:G; [|reflexivity]. exfalso.
        assert (ID : In (x +++ ".csv") (p_deprecate (make_plan S d))).
        { apply (pl_dep _ _ _ _ (plan_ok S d)). destruct (offered_parts S _ O) as [I EX]. split; [exact I|].
          split; [exact EX|]. split; [apply smem_false, NS|]. unfold is_file, dmem.
          destruct (dget (x +++ ".csv") (csvs d)); [reflexivity|]. exfalso. apply CO; [discriminate|reflexivity]. }
        assert (X : existsb (fun c => String.eqb (json_name (x +++ ".csv")) (json_name c)) (p_deprecate (make_plan S d)) = true).
        { apply existsb_exists. exists (x +++ ".csv"). split; [exact ID|apply String.eqb_refl]. }
        congruence.
      * intros p I E. destruct (csv_file_name d' p I) as [y ->]. apply json_inj in E. rewrite E in I.
        unfold csv_files in I. rewrite in_app_iff, !filter_In in I.
        assert (K : In (x +++ ".csv") (dkeys (csvs d'))) by tauto. apply dget_Some_In in K. destruct K as [t K]. congruence.
    + intros q t cv UN T G C J. rewrite <- (HU q UN) in G. destruct (J1 q (CF q t T G)) as [t' [cv' [G' [C' J']]]]. congruence.
  - destruct (update_Ok _ _ _ _ _ _ _ A H) as [[_ ->]|[X _]]; [|congruence]. split; [|split].
    + intro I. exfalso. unfold update_conventions, carry_out in H. rewrite U in H. injection H as <-.
      rewrite (pl_ev _ _ _ _ (plan_ok S d) U) in I. destruct I as [I|[I|[]]]; discriminate I.
    + intros x O NS CO. destruct (HD _ O NS) as [NC _]. destruct (dget (x +++ ".json") (jsons d)); [|reflexivity].
      exfalso. apply CO; [discriminate|exact NC].
    + intros q t cv _ _ _ _ J. exact J.
Qed.
Print Assumptions C53_json_partial.

(** when an accepted update completes *)
Theorem C53_succeeds_partial F S assume_yes response d :
  well_named S -> dir_ok d -> assume_yes = true \/ response = "y" ->
  NoDup (deprecated S) ->
  (forall c, offered S c -> ~ In c (standardized S) -> dget c (csvs d) <> None ->
     dget (json_name c) (jsons d) <> None) ->
  (forall c, offered S c -> exists cv, csv2dict F (clean (server_text S c)) = Ok cv) ->
  (forall p t, dget p (csvs d) = Some t -> exists cv, csv2dict F t = Ok cv) ->
  exists d' ev, update_conventions F S assume_yes response d = (d', ev, Ok tt).
Proof.
  intros WN W A ND HJ HS HD. apply (update_succeeds F S WN _ _ _ W A ND HJ).
  - intros c O. destruct (HS c O) as [cv E]. unfold data_of. fold (server_text S c). rewrite E. reflexivity.
  - intros p t G. destruct (HD p t G) as [cv E]. rewrite E. reflexivity.
Qed.
Print Assumptions C53_succeeds_partial.

(** What cleaning does *)
Theorem C53_cleaning s t : cleaned s t -> clean s = t.
Proof. apply clean_cleaned. Qed.
Print Assumptions C53_cleaning.

Lemma demo_named : well_named demo_server.
Proof.
  intros c H. assert (I : In c ["A.csv"; "General_1.csv"; "B.csv"]) by (cbn in H |- *; tauto). clear H.
  destruct I as [<-|[<-|[<-|[]]]]; [exists "A"|exists "General_1"|exists "B"]; (split; [reflexivity|split; [reflexivity|split; [discriminate|reflexivity]]]).
Qed.
Lemma demo_dir_ok : dir_ok demo_dir.
Proof. split; cbn; repeat constructor; cbn; intros H; decompose [or] H; try discriminate; assumption. Qed.

Example C53_case :
  snd (update_conventions demo_flt demo_server true "" demo_dir) = Ok tt /\
  offered demo_server "A.csv" /\ offered demo_server "B.csv" /\ ~ offered demo_server "General_1.csv" /\
  dkeys (csvs updated_dir) = ["C.csv"; "A.csv"; "deprecated/B.csv"] /\
  dget "A.csv" (csvs updated_dir) = Some (csv_text nl rows_a) /\
  dkeys (jsons updated_dir) = ["C.json"; "A.json"; "deprecated/B.json"] /\
  option_map dkeys (dget "A.json" (jsons updated_dir)) =
    Some ["GLOBAL:Conventions"; "GLOBAL:Version"; "ReceiverPosition"; "Data.IR"].
Proof.
  assert (O : forall c, In c ["A.csv"; "B.csv"] -> offered demo_server c).
  { intros c [<-|[<-|[]]]; (split; [cbn; tauto|split; reflexivity]). }
  split; [vm_compute; reflexivity|]. split; [apply O; left; reflexivity|]. split; [apply O; right; left; reflexivity|].
  split; [intros [_ [X _]]; discriminate X|]. split; [vm_compute; reflexivity|]. split; [vm_compute; reflexivity|].
  split; vm_compute; reflexivity.
Qed.

(** The update of B cannot be parsed since an array has a blank after the
    comma: the csv file is replaced, then a ValueError is raised. From then on
    update_conventions reports that everything is up to date, although the json
    file used by sofar is the old one. *)
Definition rows_bad : list (list string) :=
  [header; ["ListenerPosition"; "[0, 0, 0]"; "m"; "IC, MC"; "double"; ""]].
Definition bad_server : server := Server ["B.csv"] [] (fun _ _ => csv_text nl rows_bad).
Definition failed_dir : cdir := fst (fst (update_conventions demo_flt bad_server true "" demo_dir)).
Theorem C53_refuted :
  snd (update_conventions demo_flt bad_server true "" demo_dir) = Err parse_error /\
  dget "B.csv" (csvs failed_dir) = Some (clean (csv_text nl rows_bad)) /\
  dget "B.json" (jsons failed_dir) = dget "B.json" (jsons demo_dir) /\
  update_conventions demo_flt bad_server true "" failed_dir =
    (failed_dir, [EvPrint msg_reading; EvPrint msg_current], Ok tt).
Proof. vm_compute. auto. Qed.
Print Assumptions C53_refuted.

(** ** C52: Updating is idempotent *)

(** Missing for the full claim: the lines of the server's files must end with
    at most one tab and one carriage return, see [C52_refuted]. *)
Theorem C52_idempotent_partial F S assume_yes response d d' ev yes2 response2 :
  well_named S -> dir_ok d -> assume_yes = true \/ response = "y" ->
  (forall c, offered S c -> exists t, cleaned (server_text S c) t) ->
  update_conventions F S assume_yes response d = (d', ev, Ok tt) ->
  update_conventions F S yes2 response2 d' =
    (d', [EvPrint msg_reading; EvPrint "... conventions already up to date."], Ok tt).
Proof.
  intros WN W A CL H. destruct (C53_mirrors_partial F S _ _ _ _ _ WN W A H) as [HS [HD _]].
  assert (P := plan_ok S d').
  assert (SAME : forall c old t, offered S c -> mirrors S c old t -> clean t = data_of S c).
  { intros c old t O M. unfold data_of. fold (server_text S c). destruct M as [->|[_ M]]; [|exact M].
    destruct (CL c O) as [u C]. apply (clean_idem _ u C). }
  assert (NU : forall c q, In c (standardized S ++ deprecated S) -> ~ needs_update S d' c q).
  { intros c q I [EX N]. assert (O := offered_of S c I EX). destruct N as [[ST [-> N]]|[ST [_ [-> N]]]].
    - apply smem_In in ST. destruct (HS c O ST) as [t [G M]]. unfold is_file, dmem, differs in N. rewrite G in N.
      rewrite (SAME c _ t O M), String.eqb_refl in N. destruct N; discriminate.
    - apply smem_false in ST. destruct (HD c O ST) as [_ [t [G M]]]. unfold is_file, dmem, differs, deprecated_path in N. rewrite G in N.
      rewrite (SAME c _ t O M), String.eqb_refl in N. destruct N; discriminate. }
  assert (E : p_updated (make_plan S d') = false).
  { apply (pl_flag _ _ _ _ P). split.
    - destruct (p_update (make_plan S d')) as [|q l] eqn:E; [reflexivity|]. exfalso.
      assert (I : In q (p_update (make_plan S d'))) by (rewrite E; left; reflexivity).
      apply (pl_upd _ _ _ _ P) in I. destruct I as [c [I N]]. apply (NU c q I N).
    - destruct (p_deprecate (make_plan S d')) as [|c l] eqn:E; [reflexivity|]. exfalso.
      assert (I : In c (p_deprecate (make_plan S d'))) by (rewrite E; left; reflexivity).
      apply (pl_dep _ _ _ _ P) in I. destruct I as [I [EX [ST IF]]]. apply smem_false in ST.
      destruct (HD c (offered_of S c I EX) ST) as [N _]. unfold is_file, dmem in IF. rewrite N in IF. discriminate IF. }
  unfold update_conventions, carry_out. rewrite E, (pl_ev _ _ _ _ P E). reflexivity.
Qed.
Print Assumptions C52_idempotent_partial.

Lemma cleaned_rows e rows : In e line_ends ->
  (forall r, In r rows -> has_char NL (tabbed r) = false /\ endswith (str1 TAB) (tabbed r) = false /\ endswith (str1 CR) (tabbed r) = false) ->
  cleaned (csv_text e rows) (csv_text nl rows).
Proof.
  intros I. unfold csv_text, nl. induction rows as [|r rows IH]; intro H; cbn [sconcat]; [constructor; reflexivity|].
  rewrite !sapp_assoc. destruct (H r (or_introl eq_refl)) as [H1 [H2 H3]].
  assert (NE : forall c x, endswith (str1 c) x = false -> forall y, x <> y +++ str1 c).
  { intros c x N y ->. assert (X : endswith (str1 c) (y +++ str1 c) = true) by (apply RoundFacts.endswith_iff; eauto). congruence. }
  apply cl_line; [exact H1|apply NE, H2|apply NE, H3|exact I|]. apply IH. intros x J. apply H. right. exact J.
Qed.

Example C52_case :
  (forall c, offered demo_server c -> exists t, cleaned (server_text demo_server c) t) /\
  updated_dir <> demo_dir /\
  update_conventions demo_flt demo_server false "" updated_dir =
    (updated_dir, [EvPrint msg_reading; EvPrint msg_current], Ok tt).
Proof.
  split; [|split].
  - intros c _. unfold server_text, demo_server. cbn [content]. destruct (String.eqb c "A.csv").
    + exists (csv_text nl rows_a). apply cleaned_rows; [right; right; left; reflexivity|].
      intros r I. repeat (destruct I as [<-|I]; [vm_compute; auto|]). destruct I.
    + exists (csv_text nl rows_b). apply cleaned_rows; [right; right; right; left; reflexivity|].
      intros r I. repeat (destruct I as [<-|I]; [vm_compute; auto|]). destruct I.
  - intro E. apply (f_equal (fun d => dkeys (csvs d))) in E. vm_compute in E. discriminate E.
  - vm_compute. reflexivity.
Qed.

(** Lines ending with two tabs: one tab is removed when the file is written, a
    second one when it is compared. The update is offered again and again. *)
Definition tabs_server : server :=
  Server ["A.csv"] [] (fun _ _ => csv_text (str1 TAB +++ str1 TAB +++ nl) rows_b).
Definition once : cdir := fst (fst (update_conventions demo_flt tabs_server true "" demo_dir)).
Theorem C52_refuted :
  snd (update_conventions demo_flt tabs_server true "" demo_dir) = Ok tt /\
  In (EvPrint "- update convention: A") (snd (fst (update_conventions demo_flt tabs_server true "" once))) /\
  fst (fst (update_conventions demo_flt tabs_server true "" once)) = once.
Proof. split; [vm_compute; reflexivity|]. split; [vm_compute; tauto|vm_compute; reflexivity]. Qed.
Print Assumptions C52_refuted.

(** ** C54: Compiling conventions keeps all entries and orders them *)

(** reading a text with universal newlines *)
Definition unl (s : string) : string := replace_char CR NL (replace (str1 CR +++ str1 NL) (str1 NL) s).
Lemma unl_other c s : c <> CR -> unl (String c s) = String c (unl s).
Proof.
  intro N. unfold unl, replace. cbn [replace_aux]. change (str1 CR +++ str1 NL) with (String CR (String NL "")).
  cbn [String.prefix]. destruct (ascii_dec CR c) as [E|_]; [congruence|]. cbn [replace_char].
  destruct (Ascii.eqb_spec CR c) as [E|_]; [congruence|]. reflexivity.
Qed.
Lemma unl_crlf s : unl (String CR (String NL s)) = String NL (unl s).
Proof. unfold unl, replace. cbn [replace_aux]. change (str1 CR +++ str1 NL) with (String CR (String NL "")). destruct s; reflexivity. Qed.
Lemma unl_cr s : (forall r, s <> String NL r) -> unl (String CR s) = String NL (unl s).
Proof.
  intro N. unfold unl, replace. cbn [replace_aux]. change (str1 CR +++ str1 NL) with (String CR (String NL "")).
  cbn [String.prefix]. destruct (ascii_dec CR CR) as [_|E]; [|congruence].
  destruct s as [|x s]; [reflexivity|]. cbn [String.prefix]. destruct (ascii_dec NL x) as [E|_]; [exfalso; apply (N s); congruence|]. reflexivity.
Qed.
Lemma unl_line b s : has_char CR b = false -> unl (b +++ s) = b +++ unl s.
Proof.
  induction b as [|c b IH]; [reflexivity|]. cbn [has_char]. intro H. apply orb_false_iff in H. destruct H as [H1 H2].
  change (String c b +++ s) with (String c (b +++ s)). rewrite unl_other.
  - rewrite (IH H2). reflexivity.
  - intros ->. rewrite Ascii.eqb_refl in H1. discriminate H1.
Qed.

Lemma text_lines_split text l : text_lines text l ->
  split (str1 NL) (unl text) = l ++ [""] \/
  exists l' b, b <> "" /\ l = l' ++ [b] /\ split (str1 NL) (unl text) = l.
Proof.
  induction 1 as [|b NE [N1 N2]|b e s l [N1 N2] IE NS T IH].
  - left. reflexivity.
  - right. exists [], b. split; [exact NE|]. split; [reflexivity|].
    rewrite <- (sapp_nil_r b), (unl_line b "" N2). change (unl "") with "". rewrite sapp_nil_r. apply split_no_char, N1.
  - assert (U : unl (b +++ e +++ s) = b +++ String NL (unl s)).
    { rewrite (unl_line b _ N2). f_equal. destruct IE as [<-|[<-|[<-|[]]]].
      - change (str1 NL +++ s) with (String NL s). apply unl_other. discriminate.
      - apply unl_crlf.
      - apply unl_cr, NS. reflexivity. }
    rewrite U, (split_app NL b _ N1). destruct IH as [IH|[l' [b' [NE [E IH]]]]].
    + left. rewrite IH. reflexivity.
    + right. exists (b :: l'), b'. split; [exact NE|]. rewrite IH, E. split; reflexivity.
Qed.
(** the lines that Python reads are the lines of the text *)
Lemma text_lines_read text l : text_lines text l -> lines_of text = l.
Proof.
  intro T. apply text_lines_split in T. unfold lines_of.
  change (replace_char CR NL (replace (str1 CR +++ str1 NL) (str1 NL) text)) with (unl text).
  destruct T as [E|[l' [b [NE [EL E]]]]]; rewrite E.
  - rewrite rev_app_distr. cbn [rev app]. apply rev_involutive.
  - rewrite EL, rev_app_distr. cbn [rev app]. destruct b; [contradiction NE; reflexivity|reflexivity].
Qed.

Lemma first_line t : one_line t \/
  exists b e s, one_line b /\ In e [str1 NL; str1 CR +++ str1 NL; str1 CR] /\
    (e = str1 CR -> forall r, s <> String NL r) /\ t = b +++ e +++ s.
Proof.
  induction t as [|c t IH]; [left; split; reflexivity|].
  destruct (ascii_dec c NL) as [->|N1].
  { right. exists "", (str1 NL), t. split; [split; reflexivity|]. split; [left; reflexivity|]. split; [discriminate|reflexivity]. }
  destruct (ascii_dec c CR) as [->|N2].
  { right. assert (D : (exists r, t = String NL r) \/ forall r, t <> String NL r).
    { destruct t as [|x t]; [right; discriminate|]. destruct (ascii_dec x NL) as [->|N]; [left; exists t; reflexivity|right; congruence]. }
    destruct D as [[r ->]|D].
    - exists "", (str1 CR +++ str1 NL), r. split; [split; reflexivity|]. split; [right; left; reflexivity|]. split; [discriminate|reflexivity].
    - exists "", (str1 CR), t. split; [split; reflexivity|]. split; [right; right; left; reflexivity|]. split; [intros _; exact D|reflexivity]. }
  assert (H : forall b, one_line b -> one_line (String c b)).
  { intros b [H1 H2]. split; cbn [has_char]; [rewrite H1|rewrite H2]; rewrite orb_false_r; apply Ascii.eqb_neq; congruence. }
  destruct IH as [IH|[b [e [s [O [I [NS E]]]]]]]; [left; apply H, IH|].
  right. exists (String c b), e, s. split; [apply H, O|]. split; [exact I|]. split; [exact NS|]. rewrite E. reflexivity.
Qed.
(** every text has lines *)
Lemma text_lines_total text : exists l, text_lines text l.
Proof.
  remember (String.length text) as n eqn:L. revert text L.
  induction n as [n IH] using (well_founded_induction Wf_nat.lt_wf). intros text ->.
  destruct (first_line text) as [O|[b [e [s [O [I [NS ->]]]]]]].
  - destruct text as [|c t]; [exists []; constructor|]. exists [String c t]. constructor; [discriminate|exact O].
  - destruct (IH (String.length s)) with (text := s) as [l T]; [|reflexivity|].
    + rewrite !slength_app. destruct I as [<-|[<-|[<-|[]]]]; cbn; lia.
    + exists (b :: l). apply tl_line; assumption.
Qed.

Theorem C54_entries F text lines conv : text_lines text lines -> csv2dict F text = Ok conv ->
  let names := first_seen (entry_names lines) in
  NoDup (dkeys conv) /\
  dkeys conv =
    filter (fun n => is_global n && negb (is_data n)) names ++
    filter (fun n => negb (is_global n) && negb (is_data n)) names ++
    filter is_data names.
Proof.
  intro TL. cbv zeta. unfold csv2dict, entry_names. rewrite (text_lines_read _ _ TL). clear TL.
  destruct lines as [|h lines]; intro H.
  - injection H as <-. split; [constructor|reflexivity].
  - destruct (parse_line F h) as [cells|]; [|discriminate H].
    destruct (add_rows F (tl cells) lines []) as [c|e] eqn:AR; [|discriminate H]. cbn [rbind] in H. injection H as <-.
    assert (K := add_rows_Ok _ _ _ _ _ AR). cbn [dkeys map app smem existsb negb] in K.
    rewrite filter_all in K by reflexivity.
    assert (ND : NoDup (dkeys c)).
    { rewrite K. generalize (map line_name lines). induction l as [|x l IH]; cbn [first_seen]; constructor.
      - intro I. apply filter_In in I. destruct I as [_ I]. rewrite String.eqb_refl in I. discriminate I.
      - apply NoDup_filter, IH. }
    cbn [tl]. rewrite <- K. apply reorder_keys, ND.
Qed.
Print Assumptions C54_entries.

(** The entry of a name comes from the last line with this name, and its
    fields after the default are the cells of this line. *)
Theorem C54_fields F text conv h pre l post hdr :
  csv2dict F text = Ok conv -> text_lines text (h :: pre ++ l :: post) ->
  ~ In (line_name l) (map line_name post) ->
  (* the header: texts, all different *)
  split (str1 TAB) (strip h) = hdr -> NoDup (map (fun f => lower (strip f)) (tl hdr)) ->
  (forall f, In f (tl hdr) -> parse_cell F f = Some (Some (VStr false (strip f)))) ->
  exists e, dget (line_name l) conv = Some e /\
    forall j f s, nth_error hdr (S (S j)) = Some f ->
      nth_error (split (str1 TAB) (strip l)) (S (S j)) = Some s ->
      exists c, parse_cell F s = Some c /\ dget (lower (strip f)) e = Some c.
Proof.
  intros H L NI HH ND HT. unfold csv2dict in H. rewrite (text_lines_read _ _ L) in H.
  destruct (parse_line F h) as [hc|] eqn:PH; [|discriminate H].
  destruct (add_rows F (tl hc) (pre ++ l :: post) []) as [c|e] eqn:AR; [|discriminate H]. cbn [rbind] in H. injection H as <-.
  destruct (add_rows_last _ _ _ _ _ _ _ AR NI) as [cells [e [PL [PR G]]]].
  assert (NDK : NoDup (dkeys c)).
  { assert (K := add_rows_Ok _ _ _ _ _ AR). cbn [dkeys map app smem existsb negb] in K. rewrite filter_all in K by reflexivity.
    rewrite K. generalize (map line_name (pre ++ l :: post)). induction l0 as [|x l0 IH]; cbn [first_seen]; constructor.
    - intro I. apply filter_In in I. destruct I as [_ I]. rewrite String.eqb_refl in I. discriminate I.
    - apply NoDup_filter, IH. }
  exists e. split; [rewrite (reorder_get _ _ NDK); exact G|]. intros j f s NF NS.
  unfold parse_line in PL, PH. rewrite HH in PH.
  destruct (omap_nth _ _ _ PL) as [_ NL]. destruct (NL _ _ NS) as [cv [PC NC]]. exists cv. split; [exact PC|].
  assert (TC : tl hc = map (fun f => Some (VStr false (strip f))) (tl hdr)).
  { destruct hdr as [|f0 fs]; [cbn in PH; injection PH as <-; reflexivity|]. cbn [omap] in PH.
    destruct (parse_cell F f0); [|discriminate PH]. destruct (omap (parse_cell F) fs) as [r|] eqn:OM; [|discriminate PH].
    injection PH as <-. cbn [tl] in *. clear -OM HT. revert r OM. induction fs as [|x fs IH]; intros r OM; cbn [omap] in OM.
    - injection OM as <-. reflexivity.
    - rewrite (HT x (or_introl eq_refl)) in OM. destruct (omap (parse_cell F) fs) as [r'|]; [|discriminate OM]. injection OM as <-.
      cbn [map]. f_equal. apply IH; [intros y I; apply HT; right; exact I|reflexivity]. }
  apply (row_field F (tl hc) cells (line_name l) e j false (strip f) cv); [|exact PR| |exact NC].
  - rewrite TC. unfold field_names. rewrite map_map. exact ND.
  - rewrite TC. destruct hdr as [|f0 fs]; [discriminate NF|]. cbn [tl]. change (nth_error fs (S j) = Some f) in NF.
    apply (map_nth_error (fun f => Some (VStr false (strip f))) _ _ NF).
Qed.
Print Assumptions C54_fields.

Definition rows_order : list (list string) :=
  [header; ["Data.IR"; "0"; "m"; "mrn"; "double"; "first"];
   ["ListenerPosition"; "[0 0 0]"; "m"; "IC, MC"; "double"];
   ["GLOBAL:Title"; ""; "m"; ""; "attribute"; ""; ""];
   ["Data.Delay"; "[0 0]"; "m"; "IR, MR"; "double"; "delay"];
   ["Data.IR"; "[0 0]"; "m"; "mrn"; "double"; "second"];
   ["GLOBAL:Version"; "2.1"; "rm"; ""; "attribute"; "v"]].
Example C54_case :
  exists conv, csv2dict demo_flt (csv_text nl rows_order) = Ok conv /\
    dkeys conv = ["GLOBAL:Title"; "GLOBAL:Version"; "ListenerPosition"; "Data.IR"; "Data.Delay"] /\
    (exists e, dget "Data.IR" conv = Some e /\ dget "comment" e = Some (Some (VStr false "second")) /\
               dget "dimensions" e = Some (Some (VStr false "mrn"))) /\
    (exists e, dget "ListenerPosition" conv = Some e /\ dget "default" e = Some (Some (VList [VScal (EInt 0); VScal (EInt 0); VScal (EInt 0)]))
               /\ dget "comment" e = Some (Some (VStr false ""))).
Proof.
  eexists. split; [vm_compute; reflexivity|]. split; [vm_compute; reflexivity|].
  split; eexists; (split; [vm_compute; reflexivity|split; vm_compute; reflexivity]).
Qed.
(** every text has lines ([text_lines_total]); here are all ends of lines and
    a last line without an end *)
Example C54_lines :
  text_lines ("a" +++ str1 CR +++ "b" +++ crlf +++ nl +++ "c") ["a"; "b"; ""; "c"].
Proof.
  apply (tl_line "a" (str1 CR) ("b" +++ crlf +++ nl +++ "c")); [split; reflexivity|right; right; left; reflexivity|discriminate|].
  apply (tl_line "b" crlf (nl +++ "c")); [split; reflexivity|right; left; reflexivity|discriminate|].
  apply (tl_line "" nl "c"); [split; reflexivity|left; reflexivity|discriminate|].
  apply tl_last; [discriminate|split; reflexivity].
Qed.
(** the header used here meets the hypotheses of [C54_fields] *)
Example C54_header :
  NoDup (map (fun f => lower (strip f)) (tl header)) /\
  (forall f, In f (tl header) -> parse_cell demo_flt f = Some (Some (VStr false (strip f)))).
Proof.
  split.
  - cbn. repeat constructor; cbn; intro H; decompose [or] H; try discriminate; assumption.
  - intros f I. repeat (destruct I as [<-|I]; [vm_compute; reflexivity|]). destruct I.
Qed.

(** ** C55: Parsing default values *)
Theorem C55_nested F text rows cell : (2 <= List.length rows)%nat -> rows_text F text rows ->
  padded ("[" +++ text +++ "]") cell ->
  parse_cell F cell = Some (Some (VList (map (fun r => VList (map VScal r)) rows))).
Proof.
  intros L R P. rewrite (parse_bracket F text rows cell R P). destruct rows as [|l [|l' ls]]; [inversion R|cbn in L; lia|reflexivity].
Qed.
Print Assumptions C55_nested.

Theorem C55_flat F text row cell : rows_text F text [row] -> padded ("[" +++ text +++ "]") cell ->
  parse_cell F cell = Some (Some (VList (map VScal row))).
Proof. intros R P. rewrite (parse_bracket F text [row] cell R P). reflexivity. Qed.
Print Assumptions C55_flat.

Example C55_case :
  rows_text demo_flt " 0 -9 0 ; 12,3 4" [[EInt 0; EInt (-9); EInt 0]; [EInt 12; EInt 3; EInt 4]] /\
  parse_cell demo_flt "[ 0 -9 0 ; 12,3 4] " =
    Some (Some (VList [VList [VScal (EInt 0); VScal (EInt (-9)); VScal (EInt 0)]; VList [VScal (EInt 12); VScal (EInt 3); VScal (EInt 4)]])).
Proof.
  split; [|vm_compute; reflexivity].
  assert (N : forall z, numeral demo_flt (Z_str z) (EInt z)) by (intro z; constructor).
  apply (rows_more demo_flt "0 -9 0" " 0 -9 0 " [EInt 0; EInt (-9); EInt 0] " 12,3 4" [[EInt 12; EInt 3; EInt 4]]).
  - apply (row_more _ "0" _ " " "-9 0" _ (N 0%Z)); [auto|]. apply (row_more _ "-9" _ " " "0" _ (N (-9)%Z)); [auto|].
    apply row_one, (N 0%Z).
  - exists 1%nat, 1%nat. reflexivity.
  - apply (rows_one _ "12,3 4"); [|exists 1%nat, 0%nat; reflexivity].
    apply (row_more _ "12" _ "," "3 4" _ (N 12%Z)); [auto|]. apply (row_more _ "3" _ " " "4" _ (N 3%Z)); [auto|].
    apply row_one, (N 4%Z).
Qed.
