(** Theorems about sequences of writing and reading (C73). *)
From Verif Require Import Base PyStr PyNum NdArray Sofa Verify Io Stream Demo SpecAttr SpecInit SpecVerify SpecIo
  BaseFacts InitFacts VerifyFacts DemoFacts IoFacts PathFacts PropVerify PropIo.
From Coq Require Import ZArith.
Open Scope string_scope.
Open Scope list_scope.
Open Scope nat_scope.

(** ** C73 *)

(** objects that are written one after the other; exceptions are caught *)
Definition writes (E : env) (ops : list (string * sofa)) (s : fs) : fs :=
  fold_left (fun s op => fst (write_sofa E (fst op) (snd op) s)) ops s.

(** what a program can see of a file *)
Definition same_file (E : env) (s s' : fs) (name : string) : Prop :=
  (forall vo verbose, read_sofa E s name vo verbose = read_sofa E s' name vo verbose)
  /\ read_sofa_as_netcdf s name = read_sofa_as_netcdf s' name
  /\ (forall p, sofa_path name = Ok p -> stream_open s p = stream_open s' p).

Lemma same_file_at E s s' name p : sofa_path name = Ok p -> dget p (fs_files s) = dget p (fs_files s') ->
  same_file E s s' name.
Proof.
  intros P H. assert (OP : open_file s name = open_file s' name).
  { unfold open_file. rewrite P. cbn [rbind]. rewrite H. reflexivity. }
  unfold same_file. split; [|split].
  - intros vo verbose. unfold read_sofa. rewrite OP. reflexivity.
  - unfold read_sofa_as_netcdf. rewrite OP. reflexivity.
  - intros q Q. rewrite P in Q. injection Q as <-. unfold stream_open. rewrite (os_path_written name p P), H. reflexivity.
Qed.

(** a call that does not concern the file or is rejected by verify *)
Definition keeps_file (E : env) (p : string) (op : string * sofa) : Prop :=
  sofa_path (fst op) = Ok p -> dicts_ok (snd op) /\ ~ valid E VWrite (snd op).

Lemma kept E p op s : db_ok E -> rules_tidy E -> keeps_file E p op ->
  dget p (fs_files (fst (write_sofa E (fst op) (snd op) s))) = dget p (fs_files s)
  /\ fs_writable (fst (write_sofa E (fst op) (snd op) s)) = fs_writable s.
Proof.
  intros DB RT K. destruct op as [n o]. cbn [fst snd]. unfold keeps_file in K. cbn [fst snd] in K.
  destruct (write_sofa_cases E n o s) as [[o' [ev [e ->]]]|[o' [ev [q [f [r [H [_ [_ W]]]]]]]]].
  { split; reflexivity. }
  split; [|rewrite W; reflexivity].
  destruct (string_dec q p) as [->|N].
  - exfalso. assert (H' := H). apply prepare_write_Ok in H'. destruct H' as [SP _].
    destruct (K SP) as [D NV]. destruct (C30_invalid_not_written E n o (Fs [] (fun _ => true)) DB RT D NV) as [o2 [ev2 [e2 X]]].
    unfold write_sofa in X. rewrite H in X. cbn [fs_writable] in X.
    destruct (write_content E o' empty_file) as [f2 r2]. injection X as X _ _ _. discriminate X.
  - rewrite W. cbn [fst fs_set fs_files]. apply dget_dset_other. congruence.
Qed.

Lemma writes_writable E ops : forall s, fs_writable (writes E ops s) = fs_writable s.
Proof.
  unfold writes. induction ops as [|[n o] ops IH]; intro s; [reflexivity|]. cbn [fold_left fst snd]. rewrite IH.
  destruct (write_sofa_cases E n o s) as [[o' [ev [e ->]]]|[o' [ev [q [f [r [_ [_ [_ W]]]]]]]]]; [reflexivity|].
  rewrite W. reflexivity.
Qed.

Lemma writes_kept E p ops : db_ok E -> rules_tidy E -> (forall op, In op ops -> keeps_file E p op) ->
  forall s, dget p (fs_files (writes E ops s)) = dget p (fs_files s).
Proof.
  intros DB RT. unfold writes. induction ops as [|op ops IH]; intros K s; [reflexivity|]. cbn [fold_left].
  rewrite IH by (intros x X; apply K; right; exact X). apply kept; [exact DB|exact RT|]. apply K. left. reflexivity.
Qed.

(** Reading gives what was written last: everything that was in the file before
    and all calls that write other files or are rejected have no influence. *)
Theorem C73_last_write_counts :
  forall E before name o after s s0 name' p, db_ok E -> rules_tidy E ->
  sofa_path name = Ok p -> sofa_path name' = Ok p -> fs_writable s p = true ->
  m_res (snd (write_sofa E name o s0)) = Ok tt ->
  (forall op, In op after -> keeps_file E p op) ->
  same_file E (writes E (before ++ (name, o) :: after) s) (fst (write_sofa E name o s0)) name'.
Proof.
  intros E before name o after s s0 name' p DB RT P P' WR OK K. apply (same_file_at E _ _ name' p P').
  unfold writes. rewrite fold_left_app. cbn [fold_left fst snd].
  change (dget p (fs_files (writes E after (fst (write_sofa E name o (writes E before s))))) =
          dget p (fs_files (fst (write_sofa E name o s0)))).
  rewrite (writes_kept E p after DB RT K). set (s1 := writes E before s).
  assert (W1 : fs_writable s1 p = true) by (unfold s1; rewrite writes_writable; exact WR).
  unfold write_sofa in *. destruct (prepare_write E name o) as [[o' ev] [q|e]] eqn:H; [|discriminate OK].
  assert (H' := H). apply prepare_write_Ok in H'. destruct H' as [SP _]. rewrite P in SP. injection SP as <-.
  rewrite W1. destruct (write_content E o' empty_file) as [f r].
  destruct (fs_writable s0 p); [|discriminate OK]. cbn [fst fs_set fs_files]. rewrite !dget_dset_same. reflexivity.
Qed.
Print Assumptions C73_last_write_counts.

(** Files that are not written are read as before. *)
Theorem C73_unwritten :
  forall E ops s name p, db_ok E -> rules_tidy E -> sofa_path name = Ok p ->
  (forall op, In op ops -> keeps_file E p op) -> same_file E (writes E ops s) s name.
Proof.
  intros E ops s name p DB RT P K. apply (same_file_at E _ _ name p P). apply (writes_kept E p ops DB RT K).
Qed.
Print Assumptions C73_unwritten.

(** "a" is written, then "b", then "a" is replaced, and an invalid object is
    rejected *)
Definition renamed (t : string) : sofa := put "GLOBAL_Title" (VStr false t) demo_sofa.
Example C73_case :
  let ops := [("b", renamed "B"); ("a.sofa", polar)] in
  (forall op, In op ops -> keeps_file demo "a.sofa" op)
  /\ m_res (snd (write_sofa demo "a" (renamed "A2") disk)) = Ok tt
  /\ (let s := writes demo ([("a", renamed "A1")] ++ ("a", renamed "A2") :: ops) disk in
      match read_sofa demo s "a" VAuto true, read_sofa demo s "b.sofa" VAuto true with
      | (_, Ok x), (_, Ok y) => dget "GLOBAL_Title" (pub x) = Some (VStr false "A2")
                                /\ dget "GLOBAL_Title" (pub y) = Some (VStr false "B")
      | _, _ => False
      end).
Proof.
  cbv zeta. split; [|split; vm_compute; auto].
  intros op [<-|[<-|[]]] H; cbn [fst snd] in *.
  - vm_compute in H. discriminate H.
  - split; [apply put_dicts; exact demo_dicts|]. exact (proj1 C30_case).
Qed.
