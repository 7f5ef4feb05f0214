(** Theorems about updates with failing requests (C77). *)
From Verif Require Import Base PyStr PyNum NdArray Sofa UpdateConv Network SpecUpdate BaseFacts StrFacts UpdateFacts RoundFacts PropUpdate.
From Coq Require Import Lia.
Open Scope string_scope.
Open Scope list_scope.
Open Scope nat_scope.

(** ** C77 *)

(** the conventions that a page lists: last parts of the targets that end with
    csv; all links have a target *)
Inductive lists : list (option string) -> list string -> Prop :=
| li_nil : lists [] []
| li_other h t l : (forall x, h <> x +++ "csv") -> lists t l -> lists (Some h :: t) l
| li_plain h t l x : h = x +++ "csv" -> has_char "/" h = false -> lists t l -> lists (Some h :: t) (h :: l)
| li_path h t l x y : h = x +++ "/" +++ y -> has_char "/" y = false -> (exists z, h = z +++ "csv") -> lists t l -> lists (Some h :: t) (y :: l).

(** no request failed *)
Definition all_answered (log : list (request * reply)) : Prop := forall rq, ~ In (rq, NoAnswer) log.

(** the files that are requested *)
Definition wanted (std dep : list string) : list request :=
  map (fun c => RFile (smem c std) c)
    (filter (fun c => negb (startswith "General_" c || startswith "GeneralString_" c)) (std ++ dep)).

Lemma carry_out_same F p yes resp d : p_updated p = false -> fst (fst (carry_out F p yes resp d)) = d.
Proof. intro H. unfold carry_out. rewrite H. reflexivity. Qed.

Lemma download_log W std dep d l : forall n p p' r log, download W std dep d n l p = (p', r, log) ->
  (exists rq, In (rq, NoAnswer) log) <-> exists e, r = Err e.
Proof.
  induction l as [|c l IH]; intros n p p' r log H; cbn [download] in H.
  - injection H as _ <- <-. split; [intros [rq []]|intros [e Q]; discriminate Q].
  - destruct (excluded c); [apply (IH _ _ _ _ _ H)|].
    destruct (W n (RFile (smem c std) c)) as [st body|].
    + destruct (download W std dep d (S n) l _) as [[p2 r2] log2] eqn:H2. injection H as _ <- <-.
      specialize (IH _ _ _ _ _ H2). rewrite <- IH. split.
      * intros [rq [Q|I]]; [discriminate Q|eauto].
      * intros [rq I]. exists rq. right. exact I.
    + injection H as _ <- <-. split; [eauto|]. intros _. eexists. left. reflexivity.
Qed.

Lemma download_requests W std dep d l : forall n p p' log, download W std dep d n l p = (p', Ok tt, log) ->
  map fst log = map (fun c => RFile (smem c std) c)
    (filter (fun c => negb (startswith "General_" c || startswith "GeneralString_" c)) l).
Proof.
  induction l as [|c l IH]; intros n p p' log H; cbn [download] in H.
  - injection H as _ <-. reflexivity.
  - cbn [filter]. unfold excluded in H. destruct (_ || _); cbn [negb]; [apply (IH _ _ _ _ H)|].
    destruct (W n (RFile (smem c std) c)) as [st body|]; [|discriminate H].
    destruct (download W std dep d (S n) l _) as [[p2 r2] log2] eqn:H2. injection H as _ -> <-.
    cbn [map fst]. rewrite (IH _ _ _ _ H2). reflexivity.
Qed.

Lemma consider_content S S' d p c : standardized S = standardized S' ->
  content S (smem c (standardized S)) c = content S' (smem c (standardized S)) c -> consider S d p c = consider S' d p c.
Proof. intros E Q. unfold consider. rewrite <- E, Q. reflexivity. Qed.

Lemma download_plan W S d l : (forall n b c, exists st, W n (RFile b c) = Answer st (content S b c)) ->
  forall n p, exists log, download W (standardized S) (deprecated S) d n l p = (fold_left (consider S d) l p, Ok tt, log).
Proof.
  intro HW. induction l as [|c l IH]; intros n p; cbn [download fold_left]; [eexists; reflexivity|].
  assert (EX : excluded c = true -> consider S d p c = p) by (intro X; unfold consider; rewrite X; reflexivity).
  destruct (excluded c) eqn:X; [rewrite EX by reflexivity; apply IH|]. clear EX.
  destruct (HW n (smem c (standardized S)) c) as [st ->]. cbv zeta.
  rewrite (consider_content _ S) by reflexivity.
  destruct (IH (Datatypes.S n) (consider S d p c)) as [log ->]. eexists. reflexivity.
Qed.

(** If a request is not answered, no file is changed and the failure is raised.
    Missing for the full claim: requests that are answered with an error,
    see [C77_refuted]. *)
Theorem C77_unreachable_partial F parse W assume_yes response d d' ev r log :
  update_online F parse W assume_yes response d = (d', ev, r, log) ->
  (exists rq, In (rq, NoAnswer) log) -> d' = d /\ exists e, r = Err e.
Proof.
  unfold update_online. cbv zeta. intros H N.
  destruct (get_page parse (W 0 (RPage true))) as [std|e] eqn:P1; [|injection H as <- _ <- _; eauto].
  destruct (get_page parse (W 1 (RPage false))) as [dep|e] eqn:P2; [|injection H as <- _ <- _; eauto].
  destruct (download W std dep d 2 (std ++ dep) _) as [[p q] lg] eqn:D.
  destruct q as [[]|e]; [|injection H as <- _ <- _; eauto]. exfalso.
  assert (L : exists rq, In (rq, NoAnswer) lg).
  { assert (X : log = ([(RPage true, W 0 (RPage true))] ++ [(RPage false, W 1 (RPage false))]) ++ lg).
    { destruct response as [t|]; [|destruct (_ && _)];
        try (destruct (carry_out F p assume_yes _ d) as [[a b] c]); injection H as _ _ _ <-; reflexivity. }
    destruct N as [rq I]. rewrite X in I. cbn [app In] in I. destruct I as [I|[I|I]]; [| |eauto].
    - injection I as _ I. rewrite I in P1. discriminate P1.
    - injection I as _ I. rewrite I in P2. discriminate P2. }
  apply (download_log _ _ _ _ _ _ _ _ _ _ D) in L. destruct L as [e Q]. discriminate Q.
Qed.
Print Assumptions C77_unreachable_partial.

(** Without an input to confirm nothing is changed. *)
Theorem C77_no_input F parse W d d' ev r log :
  update_online F parse W false None d = (d', ev, r, log) -> d' = d.
Proof.
  unfold update_online. cbv zeta. intro H.
  destruct (get_page parse (W 0 (RPage true))) as [std|e]; [|injection H as <- _ _ _; reflexivity].
  destruct (get_page parse (W 1 (RPage false))) as [dep|e]; [|injection H as <- _ _ _; reflexivity].
  destruct (download W std dep d 2 (std ++ dep) _) as [[p q] lg].
  destruct q as [[]|e]; [|injection H as <- _ _ _; reflexivity].
  destruct (p_updated p) eqn:U; cbn [andb negb] in H; [injection H as <- _ _ _; reflexivity|].
  assert (X := carry_out_same F p false "" d U). destruct (carry_out F p false "" d) as [[a b] c]. injection H as <- _ _ _. exact X.
Qed.
Print Assumptions C77_no_input.

Lemma ends_with_csv h : endswith "csv" h = true <-> exists x, h = x +++ "csv".
Proof. rewrite endswith_iff. reflexivity. Qed.

Lemma after_last_no c h : has_char c h = false -> after_last c h = h.
Proof.
  destruct h as [|a h]; [reflexivity|]. cbn [after_last]. cbn [has_char]. intro H. apply Bool.orb_false_iff in H. destruct H as [H1 H2].
  rewrite H2. rewrite H1. reflexivity.
Qed.

Lemma after_last_app c x y : has_char c y = false -> after_last c (x +++ String c y) = y.
Proof.
  intro N. induction x as [|a x IH].
  - change ("" +++ String c y) with (String c y). cbn [after_last]. rewrite N, Ascii.eqb_refl. reflexivity.
  - change (String a x +++ String c y) with (String a (x +++ String c y)). cbn [after_last].
    assert (Q : has_char c (x +++ String c y) = true).
    { clear IH. induction x as [|b x IH]; [change ("" +++ String c y) with (String c y)|change (String b x +++ String c y) with (String b (x +++ String c y))];
        cbn [has_char]; [rewrite Ascii.eqb_refl; reflexivity|]. rewrite IH. apply Bool.orb_true_r. }
    rewrite Q. exact IH.
Qed.

Lemma lists_csv_links l r : lists l r -> csv_links l = Ok r.
Proof.
  induction 1 as [|h t l N H IH|h t l x E N H IH|h t l x y E N [z Z] H IH]; cbn [csv_links]; [reflexivity| | |]; rewrite IH; cbn [rbind].
  - destruct (endswith "csv" h) eqn:X; [|reflexivity]. apply ends_with_csv in X. destruct X as [x X]. destruct (N x X).
  - rewrite (proj2 (ends_with_csv h)) by eauto. rewrite (after_last_no _ _ N). reflexivity.
  - rewrite (proj2 (ends_with_csv h)) by eauto. rewrite E. change ("/" +++ y) with (String "/" y). rewrite (after_last_app "/" x y N). reflexivity.
Qed.

(** If all requests are answered, they are those for the two pages and for every
    listed convention, in order, except the two that are never updated. *)
Theorem C77_requests F parse W assume_yes response d d' ev r log std dep st1 b1 st2 b2 :
  update_online F parse W assume_yes response d = (d', ev, r, log) -> all_answered log ->
  W 0 (RPage true) = Answer st1 b1 -> lists (parse b1) std ->
  W 1 (RPage false) = Answer st2 b2 -> lists (parse b2) dep ->
  map fst log = RPage true :: RPage false :: wanted std dep.
Proof.
  intros H A W1 L1 W2 L2. unfold update_online in H. cbv zeta in H. rewrite W1, W2 in H. cbn [get_page] in H.
  rewrite (lists_csv_links _ _ L1), (lists_csv_links _ _ L2) in H.
  destruct (download W std dep d 2 (std ++ dep) _) as [[p q] lg] eqn:D.
  assert (X : log = ([(RPage true, Answer st1 b1)] ++ [(RPage false, Answer st2 b2)]) ++ lg).
  { destruct q; [destruct response as [t|]; [|destruct (_ && _)];
      try (destruct (carry_out F p assume_yes _ d) as [[x b] c])|]; injection H as _ _ _ <-; reflexivity. }
  destruct q as [[]|e].
  - rewrite X, map_app. rewrite (download_requests _ _ _ _ _ _ _ _ _ D). reflexivity.
  - exfalso. destruct (proj2 (download_log _ _ _ _ _ _ _ _ _ _ D) (ex_intro _ e eq_refl)) as [rq I].
    apply (A rq). rewrite X. apply in_or_app. right. exact I.
Qed.
Print Assumptions C77_requests.

(** A server that lists and delivers the conventions of [S]: the update is the
    one that C51, C52 and C53 are about. *)
Theorem C77_answered F parse W S assume_yes response d st1 b1 st2 b2 :
  W 0 (RPage true) = Answer st1 b1 -> lists (parse b1) (standardized S) ->
  W 1 (RPage false) = Answer st2 b2 -> lists (parse b2) (deprecated S) ->
  (forall n b c, exists st, W n (RFile b c) = Answer st (content S b c)) ->
  fst (update_online F parse W assume_yes (Some response) d) = update_conventions F S assume_yes response d.
Proof.
  intros W1 L1 W2 L2 HW. unfold update_online. cbv zeta. rewrite W1, W2. cbn [get_page].
  rewrite (lists_csv_links _ _ L1), (lists_csv_links _ _ L2).
  destruct (download_plan W S d (standardized S ++ deprecated S) HW 2 (Plan false [] [] [] [])) as [log ->]. reflexivity.
Qed.
Print Assumptions C77_answered.

(** demo: a server with two conventions that answers requests for files with the
    given status and text *)
Definition web_of (st : nat) (text : string) : web := fun n rq =>
  match rq with
  | RPage true => Answer 200 "std"
  | RPage false => Answer 200 "dep"
  | RFile _ _ => Answer st text
  end.
Definition demo_parse (t : string) : list (option string) :=
  if String.eqb t "std" then [Some "../"; Some "/conventions/B.csv"] else [Some "General_1.csv"; Some "D.csv"].

(** "500 Internal Server Error" replaces the convention B and makes compiling
    fail; the next update with a working server is needed to repair it. *)
Theorem C77_refuted :
  ~ (forall F parse W assume_yes response d d' ev r log,
       update_online F parse W assume_yes response d = (d', ev, r, log) ->
       (exists rq st body, In (rq, Answer st body) log /\ 400 <= st) -> d' = d).
Proof.
  intro H.
  assert (Q : exists d' ev r log, update_online demo_flt demo_parse (web_of 500 "Internal Server Error") true None demo_dir = (d', ev, r, log)
    /\ In (RFile true "B.csv", Answer 500 "Internal Server Error") log /\ dget "B.csv" (csvs d') = Some "Internal Server Error").
  { destruct (update_online demo_flt demo_parse (web_of 500 "Internal Server Error") true None demo_dir) as [[[d' ev] r] log] eqn:X.
    vm_compute in X. injection X as <- <- <- <-. do 4 eexists. split; [reflexivity|]. split; [right; right; left; reflexivity|vm_compute; reflexivity]. }
  destruct Q as [d' [ev [r [log [Q [I G]]]]]].
  assert (L : 400 <= 500) by (apply Nat.leb_le; vm_compute; reflexivity).
  rewrite (H _ _ _ _ _ _ _ _ _ _ Q (ex_intro _ _ (ex_intro _ _ (ex_intro _ _ (conj I L))))) in G. vm_compute in G. discriminate G.
Qed.
Print Assumptions C77_refuted.

(** the third request fails after an update was found; without the failure the
    directory is changed *)
Example C77_case :
  let W : web := fun n rq => if Nat.eqb n 3 then NoAnswer else web_of 200 (csv_text nl rows_a) n rq in
  (let '(d', ev, r, log) := update_online demo_flt demo_parse W true None demo_dir in
   In (RFile false "D.csv", NoAnswer) log /\ In (EvPrint "- update convention: B") ev /\ r = Err no_connection)
  /\ lists (demo_parse "std") ["B.csv"] /\ lists (demo_parse "dep") ["General_1.csv"; "D.csv"]
  /\ dget "B.csv" (csvs (fst (fst (fst (update_online demo_flt demo_parse (web_of 200 (csv_text nl rows_a)) true None demo_dir)))))
     = Some (csv_text nl rows_a).
Proof.
  cbv zeta. split; [vm_compute; tauto|]. split; [|split].
  - change (demo_parse "std") with [Some "../"; Some "/conventions/B.csv"]. apply li_other.
    { intros x Q. apply (f_equal (endswith "csv")) in Q. rewrite (proj2 (ends_with_csv (x +++ "csv"))) in Q by eauto. discriminate Q. }
    apply (li_path _ _ _ "/conventions" "B.csv"); [reflexivity|reflexivity|exists "/conventions/B."; reflexivity|]. apply li_nil.
  - change (demo_parse "dep") with [Some "General_1.csv"; Some "D.csv"].
    apply (li_plain _ _ _ "General_1."); [reflexivity|reflexivity|]. apply (li_plain _ _ _ "D."); [reflexivity|reflexivity|]. apply li_nil.
  - vm_compute. reflexivity.
Qed.
