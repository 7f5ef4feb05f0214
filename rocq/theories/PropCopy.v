(** Independent copies (C58). *)
From Coq Require Import Lia ZArith.
From Verif Require Import Base NdArray Sofa Copy SpecCopy CopyFacts.
Open Scope string_scope.
Open Scope list_scope.
Open Scope nat_scope.

(** ** C58: copies are independent *)

(** Copying always succeeds, changes no object that exists, and the copy has
    the content of the original. *)
Theorem C58_copy_has_same_content : forall h self, wf_heap h -> proper h (RLoc self) ->
  exists h' l, copy h self = Some (h', l) /\
    (forall n, observe n h' (RLoc l) = observe n h (RLoc self)) /\
    (forall n r, proper h r -> observe n h' r = observe n h r).
Proof.
  intros h self WF PS. destruct (copy_ok h WF self PS) as [h' [l [m [C [PO MG]]]]]. exists h', l. split; [exact C|]. split.
  - intro n. exact (observe_copy h WF h' m n PO (RLoc self) (RLoc l) MG).
  - intros n r PR. apply (observe_same n h h' [r]).
    + intros x RE. apply (ext_nth h h' x (po_ext _ _ _ PO)). apply (reach_lt h [r] WF); [intros y [<-|[]]; exact PR|exact RE].
    + destruct r as [e|x]; [exact I|apply reach_root; left; reflexivity].
Qed.
Print Assumptions C58_copy_has_same_content.

(** Whatever a program that has the copy and a program that has all objects
    that existed before do to the heap, and in whatever order: a change made
    by one of them is never seen by the other. *)
Theorem C58_copies_are_independent : forall h self h' l others, wf_heap h -> proper h (RLoc self) ->
  copy h self = Some (h', l) -> (forall r, In r others -> proper h r) ->
  forall h1 a1 b1, run h' (RLoc self :: others) [RLoc l] h1 a1 b1 ->
  (forall h2 b2, step h1 b1 h2 b2 -> forall n r, known h1 a1 r -> observe n h2 r = observe n h1 r) /\
  (forall h2 a2, step h1 a1 h2 a2 -> forall n r, known h1 b1 r -> observe n h2 r = observe n h1 r).
Proof.
  intros h self h' l others WF PS C PO h1 a1 b1 R.
  assert (P0 : forall r, In r (RLoc self :: others) -> proper h r) by (intros r [<-|I]; [exact PS|exact (PO r I)]).
  assert (X := apart_copy h _ self h' l WF P0 PS C).
  destruct (apart_run _ _ _ _ _ _ (ex_intro _ _ (ex_intro _ _ X)) R) as [A [B P]]. split.
  - intros h2 b2 S n r K. apply (observe_same n h1 h2 a1); [|exact K].
    intros x RE. apply (proj2 (apart_step _ _ _ _ _ _ _ (apart_sym _ _ _ _ _ P) S)). exact (apart_reach _ _ _ _ _ _ P RE).
  - intros h2 a2 S n r K. apply (observe_same n h1 h2 b1); [|exact K].
    intros x RE. apply (proj2 (apart_step _ _ _ _ _ _ _ P S)). exact (apart_reach _ _ _ _ _ _ (apart_sym _ _ _ _ _ P) RE).
Qed.
Print Assumptions C58_copies_are_independent.

(** In particular: changes of the copy leave the original as it was, and
    changes of the original leave the copy as the original was. *)
Inductive changes (h : heap) (mine : list ref) : heap -> list ref -> Prop :=
| changes_none : changes h mine h mine
| changes_more h1 m1 h2 m2 : changes h mine h1 m1 -> step h1 m1 h2 m2 -> changes h mine h2 m2.

Theorem C58_original_and_copy : forall h self h' l, wf_heap h -> proper h (RLoc self) -> copy h self = Some (h', l) ->
  (forall h1 m, changes h' [RLoc l] h1 m -> forall n, observe n h1 (RLoc self) = observe n h (RLoc self)) /\
  (forall h1 m, changes h' [RLoc self] h1 m -> forall n, observe n h1 (RLoc l) = observe n h (RLoc self)).
Proof.
  intros h self h' l WF PS C. destruct (C58_copy_has_same_content h self WF PS) as [h2 [l2 [C2 [S1 S2]]]].
  rewrite C in C2. injection C2 as <- <-. split.
  - intros h1 m CH n.
    assert (X : run h' [RLoc self] [RLoc l] h1 [RLoc self] m /\ observe n h1 (RLoc self) = observe n h (RLoc self)).
    { induction CH as [|h1 m1 h2 m2 CH [R IH] ST]; [split; [apply run_start|exact (S2 n _ PS)]|]. split; [exact (run_b _ _ _ _ _ _ _ _ R ST)|].
      rewrite <- IH. apply (proj1 (C58_copies_are_independent h self h' l [] WF PS C (fun r I => False_ind _ I) _ _ _ R) _ _ ST).
      apply reach_root. left. reflexivity. }
    exact (proj2 X).
  - intros h1 m CH n.
    assert (X : run h' [RLoc self] [RLoc l] h1 m [RLoc l] /\ observe n h1 (RLoc l) = observe n h (RLoc self)).
    { induction CH as [|h1 m1 h2 m2 CH [R IH] ST]; [split; [apply run_start|exact (S1 n)]|]. split; [exact (run_a _ _ _ _ _ _ _ _ R ST)|].
      rewrite <- IH. apply (proj2 (C58_copies_are_independent h self h' l [] WF PS C (fun r I => False_ind _ I) _ _ _ R) _ _ ST).
      apply reach_root. left. reflexivity. }
    exact (proj2 X).
Qed.
Print Assumptions C58_original_and_copy.

(** References inside of the object are kept: two names for one object are two
    names for one object in the copy (for example an entry in [_custom] and
    [_convention], /repo/sofar/sofa.py:725), and different objects stay
    different. *)
Theorem C58_sharing : forall h self h' l, wf_heap h -> proper h (RLoc self) -> copy h self = Some (h', l) ->
  forall t d, nth_error h self = Some (CMap t d) ->
  exists d', nth_error h' l = Some (CMap t d') /\ map fst d' = map fst d /\
    forall i j x y x' y', nth_error (map snd d) i = Some (RLoc x) -> nth_error (map snd d) j = Some (RLoc y) ->
      nth_error (map snd d') i = Some (RLoc x') -> nth_error (map snd d') j = Some (RLoc y') -> (x = y <-> x' = y').
Proof.
  intros h self h' l WF PS C t d G. destruct (copy_ok h WF self PS) as [h1 [l1 [m [C1 [PO MG]]]]]. rewrite C in C1. injection C1 as <- <-.
  destruct (po_new _ _ _ PO self l MG eq_refl) as [_ [c [c' [G1 [G2 M]]]]]. cbn [fst snd] in *.
  assert (XT := po_ext _ _ _ PO). cbn [fst] in XT. rewrite (ext_some _ _ _ _ XT G) in G1. injection G1 as <-.
  destruct c' as [t' d'|rs|k s i w b|es]; try destruct M as []. rename H into ET. rename H0 into M.
  destruct M as [K F]. subst t'. exists d'. split; [exact G2|]. split; [symmetry; exact K|].
  intros i j x y x' y' I1 I2 I3 I4.
  assert (MI : forall i x x', nth_error (map snd d) i = Some (RLoc x) -> nth_error (map snd d') i = Some (RLoc x') -> mget x m = Some x').
  { clear -F. revert F. generalize (map snd d) (map snd d'). intros p q F. induction F as [|a b p q AB F IH]; intros [|i] x x' I1 I2; cbn [nth_error] in *; try discriminate.
    - injection I1 as ->. injection I2 as ->. exact AB.
    - exact (IH i x x' I1 I2). }
  assert (E1 := MI i x x' I1 I3). assert (E2 := MI j y y' I2 I4). split.
  - intros ->. rewrite E1 in E2. injection E2 as ->. reflexivity.
  - intros ->. exact (proj2 (po_memo _ _ _ PO) _ _ _ E1 E2).
Qed.
Print Assumptions C58_sharing.

(** ** Example *)
Definition is_bufb (h : heap) (l : nat) : bool := match nth_error h l with Some (CBuf _) => true | _ => false end.
Definition properb (h : heap) (r : ref) : bool :=
  match r with RAtom _ => true | RLoc l => Nat.ltb l (List.length h) && negb (is_bufb h l) end.
Definition wf_heapb (h : heap) : bool :=
  forallb (fun c => match c with CArr _ _ _ _ b => is_bufb h b | _ => forallb (properb h) (refs_of c) end) h.
Lemma is_bufb_ok h l : is_bufb h l = true <-> is_buf h l.
Proof. unfold is_bufb, is_buf. destruct (nth_error h l) as [[]|]; split; try discriminate; try (intros [es H]; discriminate H); eauto. Qed.
Lemma properb_ok h r : properb h r = true -> proper h r.
Proof.
  destruct r as [e|l]; cbn [properb proper]; [auto|]. intro H. apply andb_prop in H. destruct H as [L B]. apply Nat.ltb_lt in L.
  destruct (nth_error h l) as [c|] eqn:G; [|apply nth_error_None in G; lia]. exists c. split; [reflexivity|].
  intro X. apply is_bufb_ok in X. rewrite X in B. discriminate B.
Qed.
Lemma wf_heapb_ok h : wf_heapb h = true -> wf_heap h.
Proof.
  unfold wf_heapb. rewrite forallb_forall. intros H l c G. specialize (H c (nth_error_In _ _ G)).
  destruct c; cbn [proper_cell]; try (apply is_bufb_ok, H);
    (rewrite forallb_forall in H; intros r I; apply properb_ok, H, I).
Qed.

(** A Sofa object (location 0): the attribute Data_IR (2) is a view on two of
    the three numbers of an array (3) that the user still holds, they share the
    buffer 4. The entry 6 of a custom attribute is contained in [_convention]
    (1) and [_custom] (5). *)
Definition h_case : heap :=
  [ CMap TInstance [("_convention", RLoc 1); ("GLOBAL_Title", RAtom (EStr "HRIRs")); ("Data_IR", RLoc 2); ("_custom", RLoc 5)];
    CMap TDict [("Notes", RLoc 6)];
    CArr KI [1; 2] [1; 2] false 4;
    CArr KI [3] [0; 1; 2] false 4;
    CBuf [EInt 7%Z; EInt 8%Z; EInt 9%Z];
    CMap TDict [("Notes", RLoc 6)];
    CMap TDict [("flags", RAtom EObj); ("default", RLoc 7)];
    CList [RAtom (EStr "")] ].

(** The copy is the object at location 8, its array (12) has the buffer at 13. The
    program with the copy writes into this buffer, this is seen in the copy and
    neither in the original nor in the user's array. *)
Example C58_case :
  wf_heap h_case /\ proper h_case (RLoc 0) /\ proper h_case (RLoc 3) /\
  exists h' h1, copy h_case 0 = Some (h', 8) /\
    nth_error h' 13 = Some (CBuf [EInt 8%Z; EInt 9%Z]) /\
    h1 = set_nth 13 (CBuf [EInt 0%Z; EInt 0%Z]) h' /\
    changes h' [RLoc 8] h1 [RLoc 8] /\
    observe 5 h1 (RLoc 8) <> observe 5 h' (RLoc 8) /\
    observe 5 h1 (RLoc 0) = observe 5 h' (RLoc 8) /\
    observe 5 h1 (RLoc 3) = observe 5 h_case (RLoc 3).
Proof.
  split; [apply wf_heapb_ok; vm_compute; reflexivity|]. split; [apply properb_ok; vm_compute; reflexivity|].
  split; [apply properb_ok; vm_compute; reflexivity|].
  eexists _, _. split; [vm_compute; reflexivity|]. split; [vm_compute; reflexivity|]. split; [reflexivity|]. split; [|split; [|split]].
  - eapply changes_more; [apply changes_none|]. apply step_write.
    + eapply (reach_next _ _ 12); [eapply (reach_next _ _ 8); [apply reach_root; left; reflexivity|reflexivity|]|reflexivity|].
      * right. right. left. reflexivity.
      * left. reflexivity.
    + intros r [].
  - vm_compute. discriminate.
  - vm_compute. reflexivity.
  - vm_compute. reflexivity.
Qed.
