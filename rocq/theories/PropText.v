(** The argument file of inspect. *)
From Verif Require Import Base PyStr PyNum NdArray Sofa Verify Io Stream TextFile SpecInfo SpecVerify SpecIo SpecStreamInfo
  BaseFacts CoreFacts DictFacts Demo DemoFacts PropVerify PropIo PropRound PropInfo PropStream PropStreamInfo.
Open Scope string_scope.
Open Scope list_scope.
Open Scope nat_scope.

(** ** Specification *)

(** what a call of print shows on the console: the text and a line end *)
Definition shown (e : event) : string :=
  match e with EvPrint s => s +++ nl | EvWarn _ => "" end.

(** only the file [p] may differ *)
Definition only (p : string) (t t' : texts) : Prop :=
  forall q, q <> p -> dget q (t_files t') = dget q (t_files t).

Lemma inspect_is E h o : inspect E h o =
  match inspect_text E h o with
  | (o', ev, Ok text) => (o', ev ++ [EvPrint text], Ok tt)
  | (o', ev, Err e) => (o', ev, Err e)
  end.
Proof.
  unfold inspect, inspect_text, bind, get, lift, emit, ret. destruct (verify E h VWrite o) as [[o1 e1] [a|e]]; [|reflexivity].
  destruct (header E o1) as [hd|e]; [|reflexivity]. destruct (rconcat (inspect_entry E o1) (pub o1)) as [txt|e]; [|reflexivity].
  cbn. rewrite !app_nil_r. reflexivity.
Qed.

Lemma saved_only p text t t' r : save_text p text t = (t', r) -> only p t t'.
Proof.
  unfold save_text. destruct (t_writable t p); [destruct (t_encodable t text)|]; intros [= <- _] q N; cbn [t_files];
    [apply dget_dset_other; congruence|apply dget_dset_other; congruence|reflexivity].
Qed.

(** ** C91: a saved inspection is what was shown *)

(** Missing for the full claim: a file keeps its content if the call fails. This
    holds unless the platform cannot encode the text, see [C91_refuted]. *)
Theorem C91_inspect_file_partial :
  forall E h o t,
  (* without a file nothing is saved *)
  inspect_to E h None o t = (t, inspect E h o)
  /\ forall p t' o' ev r, inspect_to E h (Some p) o t = (t', (o', ev, r)) ->
     only p t t'
     (* the call does to the object what it does without a file *)
     /\ o' = m_obj (inspect E h o)
     /\ (r = Ok tt -> dicts_ok o ->
           inspect E h o = (o', ev, Ok tt)
           /\ exists before text, ev = before ++ [EvPrint text]
              /\ dget p (t_files t') = Some (shown (EvPrint text)) /\ lists text (dkeys (pub o')))
     /\ (forall e, m_res (inspect E h o) = Err e -> r = Err e /\ ev = m_out (inspect E h o) /\ t' = t)
     /\ (t_writable t p = false -> r <> Ok tt /\ t' = t)
     /\ (forall e, r = Err e -> (forall text, t_encodable t text = true) -> t' = t).
Proof.
  intros E h o t. rewrite inspect_is. unfold inspect_to. destruct (inspect_text E h o) as [[o1 e1] [text|e]] eqn:IT.
  2: { split; [reflexivity|]. intros p t' o' ev r [= <- <- <- <-]. split; [intros q _; reflexivity|]. split; [reflexivity|].
    split; [discriminate|]. split; [intros e' [= <-]; repeat split|]. split; [intros _; split; [discriminate|reflexivity]|intros; reflexivity]. }
  split; [reflexivity|]. intros p t' o' ev r H. unfold save_if in H.
  destruct (save_text p (text +++ nl) t) as [t1 r1] eqn:SV. assert (ON := saved_only _ _ _ _ _ SV).
  unfold save_text in SV. destruct r1 as [[]|e]; injection H as <- <- <- <-; (split; [exact ON|]); (split; [reflexivity|]).
  - split; [|split; [discriminate|split; [|discriminate]]].
    + intros _ DO. split; [reflexivity|].
      assert (IN : inspect E h o = (o1, e1 ++ [EvPrint text], Ok tt)) by (rewrite inspect_is, IT; reflexivity).
      destruct (C56_listing_partial E h o o1 _ DO IN) as [b [t2 [EQ [L _]]]]. apply app_inj_tail in EQ. destruct EQ as [<- EQ].
      injection EQ as <-. exists e1, text. split; [reflexivity|]. split; [|exact L]. cbn [shown].
      destruct (t_writable t p); [destruct (t_encodable t (text +++ nl))|]; try discriminate SV. injection SV as <-. cbn [t_files].
      apply dget_dset_same.
    + intro WR. rewrite WR in SV. discriminate SV.
  - split; [discriminate|]. split; [discriminate|]. split.
    + intro WR. rewrite WR in SV. injection SV as <- _. split; [discriminate|reflexivity].
    + intros e' _ EN. rewrite EN in SV. destruct (t_writable t p); [discriminate SV|]. injection SV as <- _. reflexivity.
Qed.
Print Assumptions C91_inspect_file_partial.

(** The same for an opened file. *)
Theorem C91_stream_file_partial :
  forall E f t,
  stream_inspect_to E f None t
    = (t, match stream_inspect E f with Ok text => ([EvPrint text], Ok tt) | Err e => ([], Err e) end)
  /\ forall p t' ev r, stream_inspect_to E f (Some p) t = (t', (ev, r)) ->
     only p t t'
     /\ (r = Ok tt -> exists text, stream_inspect E f = Ok text /\ ev = [EvPrint text]
                      /\ dget p (t_files t') = Some (shown (EvPrint text)))
     /\ (r = Ok tt -> inspectable f -> exists text, ev = [EvPrint text] /\ inspection E f text)
     /\ (forall e, stream_inspect E f = Err e -> r = Err e /\ ev = [] /\ t' = t)
     /\ (t_writable t p = false -> r <> Ok tt /\ t' = t)
     /\ (forall e, r = Err e -> (forall text, t_encodable t text = true) -> t' = t).
Proof.
  intros E f t. unfold stream_inspect_to. destruct (stream_inspect E f) as [text|e] eqn:IT.
  2: { split; [reflexivity|]. intros p t' ev r [= <- <- <-]. split; [intros q _; reflexivity|].
    split; [discriminate|]. split; [discriminate|]. split; [intros e' [= <-]; repeat split|].
    split; [intros _; split; [discriminate|reflexivity]|intros; reflexivity]. }
  split; [reflexivity|]. intros p t' ev r H. unfold save_if in H.
  destruct (save_text p (text +++ nl) t) as [t1 r1] eqn:SV. assert (ON := saved_only _ _ _ _ _ SV).
  unfold save_text in SV. destruct r1 as [[]|e]; injection H as <- <- <-; (split; [exact ON|]).
  - split; [|split; [|split; [discriminate|split; [|discriminate]]]].
    + intros _. exists text. split; [reflexivity|]. split; [reflexivity|]. cbn [shown].
      destruct (t_writable t p); [destruct (t_encodable t (text +++ nl))|]; try discriminate SV. injection SV as <-. cbn [t_files].
      apply dget_dset_same.
    + intros _ IP. destruct (C62_inspect_partial E f IP) as [t2 [T2 IS]]. rewrite IT in T2. injection T2 as <-.
      exists text. split; [reflexivity|exact IS].
    + intro WR. rewrite WR in SV. discriminate SV.
  - split; [discriminate|]. split; [discriminate|]. split; [discriminate|]. split.
    + intro WR. rewrite WR in SV. injection SV as <- _. split; [discriminate|reflexivity].
    + intros e' _ EN. rewrite EN in SV. destruct (t_writable t p); [discriminate SV|]. injection SV as <- _. reflexivity.
Qed.
Print Assumptions C91_stream_file_partial.

(** a directory with an earlier report, in which everything but [locked] can be
    written; texts with bytes above ASCII can not be encoded *)
Definition reports : texts :=
  Texts [("report.txt", "old"); ("locked.txt", "kept")] (fun p => negb (String.eqb p "locked.txt"))
        (fun s => forallb (fun c => Nat.ltb (nat_of_ascii c) 128) (chars s)).

Example C91_case :
  dicts_ok demo_sofa
  /\ (exists t' o' text, inspect_to demo HPrint (Some "report.txt") demo_sofa reports = (t', (o', [EvPrint text], Ok tt))
        /\ dget "report.txt" (t_files t') = Some (text +++ nl) /\ dget "locked.txt" (t_files t') = Some "kept"
        /\ contains ("SimpleFreeFieldHRIR 1.0 (SOFA version 2.1)" +++ nl) text = true)
  /\ (exists t' text, stream_inspect_to demo trip_file (Some "new.txt") reports = (t', ([EvPrint text], Ok tt))
        /\ dget "new.txt" (t_files t') = Some (text +++ nl) /\ dget "report.txt" (t_files t') = Some "old")
  /\ (exists o' ev, inspect_to demo HPrint (Some "locked.txt") demo_sofa reports = (reports, (o', ev, Err (Exn EOSError "locked.txt")))).
Proof.
  split; [exact demo_dicts|]. split; [|split].
  - do 3 eexists. split; [vm_compute; reflexivity|]. repeat (split; [vm_compute; reflexivity|]). vm_compute. reflexivity.
  - do 2 eexists. split; [vm_compute; reflexivity|]. split; vm_compute; reflexivity.
  - do 2 eexists. vm_compute. reflexivity.
Qed.

(** The title contains a letter that the encoding of the platform does not have.
    The object is valid and the call without a file succeeds, but with a file it
    raises and the earlier report is lost. *)
Theorem C91_refuted :
  let o := put "GLOBAL_Title" (VStr false (String (ascii_of_nat 195) (String (ascii_of_nat 188) ""))) demo_sofa in
  valid demo VWrite o /\ m_res (inspect demo HPrint o) = Ok tt
  /\ exists t' o' ev m, inspect_to demo HPrint (Some "report.txt") o reports = (t', (o', ev, Err (Exn EUnicodeError m)))
     /\ dget "report.txt" (t_files reports) = Some "old" /\ dget "report.txt" (t_files t') = Some "".
Proof.
  intro o. split; [|split; [vm_compute; reflexivity|]].
  - apply C11_verify_iff_valid; [exact demo_db_ok|exact demo_rules_tidy|apply put_dicts; exact demo_dicts|vm_compute; reflexivity].
  - do 4 eexists. split; [vm_compute; reflexivity|]. split; vm_compute; reflexivity.
Qed.
Print Assumptions C91_refuted.
