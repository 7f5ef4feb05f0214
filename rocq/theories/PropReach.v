(** Theorems about all objects and files of a program (C75). *)
From Verif Require Import Base PyStr PyNum NdArray Sofa Verify Upgrade Io Demo SpecAttr SpecInit SpecVerify SpecUpgrade SpecIo SpecReach
  BaseFacts InitFacts DictFacts DimFacts VerifyFacts DemoFacts ReachFacts PropVerify PropUpgrade PropIo.
From Coq Require Import ZArith.
Open Scope string_scope.
Open Scope list_scope.
Open Scope nat_scope.

(** ** C75 *)

(** Whatever a program does: all objects and all files are well-formed. *)
Theorem C75_programs :
  forall E s os, defaults_ok E -> world E s os -> disk_sound s /\ forall o, In o os -> sound o.
Proof.
  intros E s os DE W. destruct (world_whole E s os DE W) as [DS H]. split; [exact DS|].
  intros o I. apply whole_sound, H, I.
Qed.
Print Assumptions C75_programs.

(** Hence verify decides the validity of every object of a program (C11) *)
Theorem C75_verify_decides :
  forall E s os o m, db_ok E -> rules_tidy E -> defaults_ok E -> world E s os -> In o os ->
  (is_ok (m_res (verify E HRaise m o)) = true <-> valid E m o).
Proof.
  intros E s os o m DB RT DE W I. destruct (C75_programs E s os DE W) as [_ H].
  apply verify_iff_valid; [exact DB|exact RT|]. apply (so_dicts o (H o I)).
Qed.
Print Assumptions C75_verify_decides.

(** and every object of a program is upgraded as described by the rules (C48) *)
Theorem C75_upgraded :
  forall E s os o t vo o' ev r targets id, db_ok E -> defaults_ok E -> world E s os -> In o os ->
  offers E o targets id -> In t targets -> upgrade_convention E (Some t) vo o = (o', ev, Ok r) ->
  exists sp c v content, changes E o id sp /\ has_file E c v content
    /\ (t = c +++ "_" +++ v \/ t = c +++ "_latest")
    /\ (changes_tidy sp -> upgraded (sofar_keys content) sp (pub o) (pub o')).
Proof.
  intros E s os o t vo o' ev r targets id DB DE W I OF IT H. destruct (C75_programs E s os DE W) as [_ SO].
  destruct (SO o I) as [D PL _ CU].
  destruct (C48_upgraded E o t vo o' ev r targets id DB D) as [sp [c [v [content [H1 [H2 [H3 H4]]]]]]];
    [|  |exact OF|exact IT|exact H|].
  - intros cu k e Q G. apply dget_In in G. apply (CU cu k e Q G).
  - intros cu Q K. apply dget_Some_In in K. destruct K as [e G]. apply dget_In in G. apply (CU cu _ e Q G). reflexivity.
  - exists sp, c, v, content. repeat (split; [assumption|]). intro CT. apply H4; [exact CT|].
    intros k x _ G. apply (PL k x G).
Qed.
Print Assumptions C75_upgraded.

Fixpoint inputb (v : value) : bool :=
  match v with VArr a => wf_arr a | VList l => forallb inputb l | _ => true end.
Fixpoint inputb_ok (v : value) : inputb v = true -> input v.
Proof.
  destruct v as [b s|x|a|l]; intro H; [apply in_str|apply in_scal|apply in_arr; exact H|].
  apply in_list. cbn in H. induction l as [|y l IH]; intros v I; [destruct I|].
  cbn in H. apply andb_true_iff in H. destruct H as [H1 H2]. destruct I as [<-|I]; [apply inputb_ok; exact H1|apply (IH H2 v I)].
Qed.

Lemma demo_defaults : defaults_ok demo.
Proof.
  assert (C : forallb (fun f : string * convention => forallb (fun ke => inputb (e_default (snd ke))) (snd f)) (db demo) = true)
    by (vm_compute; reflexivity).
  intros f k e F K. rewrite forallb_forall in C. specialize (C f F). rewrite forallb_forall in C.
  apply inputb_ok. exact (C (k, e) K).
Qed.

Lemma disk_ok : disk_sound disk.
Proof.
  intros p f G. apply dget_In in G. cbn in G. destruct G as [G|[G|[]]]; [|discriminate G]. injection G as _ <-. exact empty_sound.
Qed.

(** a program: an object is created, changed, written and read *)
Definition program : fs * list sofa :=
  match sofa_init demo "SimpleFreeFieldHRIR" false "1.0" VAuto with
  | (_, Ok o) =>
      let o1 := step demo o (OSet "GLOBAL_Title" (VStr false "T")) in
      let o2 := step demo o1 (OAddVar "Gains" (VList [VScal (EInt 1); VScal (EInt 2)]) "double" (Some "IK")) in
      let s1 := fst (write_sofa demo "a" o2 disk) in
      let o3 := m_obj (snd (write_sofa demo "a" o2 disk)) in
      match read_sofa demo s1 "a.sofa" VAuto true with
      | (_, Ok p) => (s1, [p; o3])
      | _ => (disk, [])
      end
  | _ => (disk, [])
  end.

Example C75_case : world demo (fst program) (snd program)
  /\ List.length (snd program) = 2 /\ dkeys (fs_files (fst program)) = ["old.sofa"; "text.sofa"; "a.sofa"]
  /\ (forall p, In p (snd program) -> m_res (verify demo HRaise VWrite p) = Ok None
        /\ exists a, dget "Gains" (pub p) = Some (VArr a) /\ a_shape a = [1; 2]).
Proof.
  split.
  - unfold program. destruct (sofa_init demo "SimpleFreeFieldHRIR" false "1.0" VAuto) as [ev [o|e]] eqn:I;
      [|apply wo_start; exact disk_ok].
    cbv zeta. set (o1 := step demo o _). set (o2 := step demo o1 _).
    assert (W2 : world demo disk ([] ++ o2 :: [])).
    { apply (wo_call demo disk [] o1 [] _); [|apply inputb_ok; reflexivity].
      apply (wo_call demo disk [] o [] _); [|apply in_str].
      refine (wo_create demo disk [] _ _ _ _ _ _ _ I). apply wo_start. exact disk_ok. }
    assert (W3 := wo_write demo disk [] o2 [] "a" W2).
    destruct (read_sofa demo (fst (write_sofa demo "a" o2 disk)) "a.sofa" VAuto true) as [ev2 [p|e]] eqn:R;
      [|apply wo_start; exact disk_ok].
    apply (wo_read demo _ _ "a.sofa" VAuto true ev2 p W3 R).
  - split; [vm_compute; reflexivity|]. split; [vm_compute; reflexivity|].
    assert (C : forallb (fun p => match m_res (verify demo HRaise VWrite p), dget "Gains" (pub p) with
                                  | Ok None, Some (VArr a) => shape_eqb (a_shape a) [1; 2]
                                  | _, _ => false end) (snd program) = true) by (vm_compute; reflexivity).
    intros p P. rewrite forallb_forall in C. specialize (C p P).
    destruct (m_res (verify demo HRaise VWrite p)) as [[t|]|e]; try discriminate C.
    destruct (dget "Gains" (pub p)) as [[b t|x|a|l]|]; try discriminate C.
    split; [reflexivity|]. exists a. split; [reflexivity|]. destruct (a_shape a) as [|x [|y [|z r]]]; try discriminate C.
    + cbn in C. rewrite andb_false_r in C. discriminate C.
    + cbn in C. apply andb_true_iff in C. destruct C as [C1 C]. apply andb_true_iff in C. destruct C as [C2 _].
      apply Nat.eqb_eq in C1. apply Nat.eqb_eq in C2. subst. reflexivity.
    + cbn in C. rewrite !andb_false_r in C. discriminate C.
Qed.
