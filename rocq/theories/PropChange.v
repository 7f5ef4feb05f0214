(** C95, C96: changes of different entries in any order, and repeated assignments. *)
From Verif Require Import Base PyStr PyNum NdArray Sofa Verify Upgrade Demo
  SpecAttr SpecInit SpecValue SpecVerify SpecOrder SpecChange DemoFacts BaseFacts StrFacts CoreFacts DictFacts ProtFacts ChangeFacts
  PropVerify PropAttr PropOrder.
From Coq Require Import ZArith Permutation.
Open Scope string_scope.
Open Scope list_scope.

(** ** C95 *)
(** Each of the calls gives the messages and the result that it gives as the only call.
    Full claim: for all values; see [C95_refuted] *)
Theorem C95_each_alone_partial :
  forall E o pre p post, dicts_ok o -> prot o = true ->
  all_apart (pre ++ p :: post) -> Forall safe_op (pre ++ p :: post) ->
  m_out (run_op E p (run E o pre)) = m_out (run_op E p o)
  /\ m_res (run_op E p (run E o pre)) = m_res (run_op E p o).
Proof. intros E o pre p post D P A S. apply (run_alone E o pre p post A S D P). Qed.
Print Assumptions C95_each_alone_partial.

Lemma same_reordered a b : dicts_ok a -> dicts_ok b -> same_object a b -> reordered a b.
Proof.
  intros [Da Ca] [Db Cb] S. split; [apply dget_same_perm; [exact Da|exact Db|apply so_pub; exact S]|].
  pose proof (so_custom _ _ S) as C. destruct (custom a), (custom b); try contradiction; [|exact I].
  apply dget_same_perm; assumption.
Qed.

(** in any order the calls lead to the same object, except for the order of its data *)
Theorem C95_order_partial :
  forall E o l l', dicts_ok o -> prot o = true -> all_apart l -> Forall safe_op l -> Permutation l l' ->
  same_object (run E o l) (run E o l') /\ reordered (run E o l) (run E o l').
Proof.
  intros E o l l' D P A S PM. assert (SO := run_perm E l l' PM o A S D P).
  split; [exact SO|]. apply same_reordered; [apply run_dicts; exact D|apply run_dicts; exact D|exact SO].
Qed.
Print Assumptions C95_order_partial.

(** and verify accepts the object in both cases or in none *)
Theorem C95_verify_partial :
  forall E m o l l', db_ok E -> rules_tidy E -> dicts_ok o -> prot o = true -> all_apart l -> Forall safe_op l ->
  Permutation l l' -> (forall cv, convention_of E (run E o l) cv -> orderly cv (run E o l)) ->
  is_ok (m_res (verify E HRaise m (run E o l))) = is_ok (m_res (verify E HRaise m (run E o l'))).
Proof.
  intros E m o l l' DB RT D P A S PM OR. apply C71_order_partial; try assumption.
  - apply run_dicts. exact D.
  - apply (C95_order_partial E o l l' D P A S PM).
Qed.
Print Assumptions C95_verify_partial.

(** adding, assigning and deleting four entries; the last call is refused *)
Definition four : list op :=
  [ OAddVar "Gains" (nums [1; 2] [5; 6]%Z) "double" (Some "MK");
    OSet "Data_SamplingRate" (nums [1] [44100]%Z);
    ODel "GLOBAL_ApplicationName";
    OSet "GLOBAL_DataType" (VStr false "TF") ].

Lemma apart_names p q n m : changes p = Some n -> changes q = Some m -> String.eqb n m = false ->
  negb (adds p && adds q) = true -> apart p q.
Proof.
  intros A B C D. exists n, m. split; [exact A|]. split; [exact B|]. split.
  - intros ->. rewrite String.eqb_refl in C. discriminate C.
  - intros X Y. rewrite X, Y in D. discriminate D.
Qed.

Lemma four_apart : all_apart four.
Proof.
  unfold four. cbn [all_apart]. repeat split;
  try (eexists; vm_compute; reflexivity);
  intros q I; repeat (destruct I as [<-|I]; [eapply apart_names; vm_compute; reflexivity|]); destruct I.
Qed.

Lemma four_safe : Forall safe_op four.
Proof.
  unfold four. constructor; [split; vm_compute; reflexivity|].
  constructor; [left; intro H; vm_compute in H; discriminate H|]. constructor; [exact I|].
  constructor; [left; intro H; vm_compute in H; discriminate H|]. constructor.
Qed.

Example C95_case :
  same_object (run demo demo_sofa four) (run demo demo_sofa (rev four))
  /\ map (fun p => is_ok (m_res (run_op demo p demo_sofa))) four = [true; true; true; false]
  /\ dget "Gains" (pub (run demo demo_sofa four)) = Some (nums [1; 2] [5; 6]%Z)
  /\ dget "GLOBAL_ApplicationName" (pub (run demo demo_sofa four)) = None
  /\ dmem "GLOBAL_ApplicationName" (pub demo_sofa) = true
  /\ dkeys (pub (run demo demo_sofa (rev four))) = dkeys (pub (run demo demo_sofa four)).
Proof.
  assert (P : prot demo_sofa = true) by (vm_compute; reflexivity).
  split; [exact (proj1 (C95_order_partial demo demo_sofa four (rev four) demo_dicts P four_apart four_safe (Permutation_rev four)))|].
  split; [vm_compute; reflexivity|]. split; [vm_compute; reflexivity|]. split; [vm_compute; reflexivity|].
  split; vm_compute; reflexivity.
Qed.

(** A variable with a value that can not be stored is refused, and the object is not
    protected afterwards: a call that changes a different entry is then not refused.
    In the other order it is. *)
Theorem C95_refuted :
  let p := OAddVar "Temp" ragged "double" (Some "MR") in
  let q := OSet "GLOBAL_DataType" (VStr false "TF") in
  all_apart [p; q] /\ prot demo_sofa = true /\ dicts_ok demo_sofa
  /\ is_ok (m_res (run_op demo q demo_sofa)) = false
  /\ is_ok (m_res (run_op demo q (run demo demo_sofa [p]))) = true
  /\ dget "GLOBAL_DataType" (pub (run demo demo_sofa [p; q])) <> dget "GLOBAL_DataType" (pub (run demo demo_sofa [q; p])).
Proof.
  cbv zeta. split.
  - cbn [all_apart]. split; [eexists; vm_compute; reflexivity|]. split.
    + intros r I. destruct I as [<-|[]]. eapply apart_names; vm_compute; reflexivity.
    + split; [eexists; vm_compute; reflexivity|]. split; [intros r []|exact I].
  - split; [vm_compute; reflexivity|]. split; [exact demo_dicts|]. split; [vm_compute; reflexivity|].
    split; [vm_compute; reflexivity|]. intro H. vm_compute in H. discriminate H.
Qed.
Print Assumptions C95_refuted.

(** ** C96 *)
Lemma set_twice n v w o : prot o = true -> n <> "protected" -> is_ok (normalize w) = true ->
  same_object (m_obj (set_attr n w (m_obj (set_attr n v o)))) (m_obj (set_attr n w o))
  /\ m_res (set_attr n w (m_obj (set_attr n v o))) = m_res (set_attr n w o).
Proof.
  intros P N OK. apply eqb_neq_s in N. destruct (normalize w) as [x|] eqn:W; [|discriminate OK].
  unfold set_attr. rewrite N, W. destruct (is_private n || String.eqb n "list_dimensions") eqn:IP; [split; [apply same_refl|reflexivity]|].
  destruct (prot o && negb (hasattr o n)) eqn:H1.
  { cbn [m_obj fst]. rewrite H1. split; [apply same_refl|reflexivity]. }
  destruct (in_ro n (ro o) && prot o) eqn:H2.
  { cbn [m_obj fst]. rewrite H1, H2. split; [apply same_refl|reflexivity]. }
  destruct (normalize v) as [y|e].
  - cbn [m_obj fst].
    assert (H3 : hasattr (with_pub o (dset n y (pub o))) n = true).
    { unfold hasattr, dmem. cbn [with_pub pub]. rewrite dget_dset_same. reflexivity. }
    rewrite H3. cbn [with_pub prot ro]. rewrite andb_false_r, H2. cbn [m_obj m_res fst snd]. split; [|reflexivity].
    apply same_iff. cbn [with_pub pub conv ro prot dims api]. split.
    + intro k. rewrite !ChangeFacts.dget_dset. destruct (String.eqb k n); reflexivity.
    + repeat split; reflexivity.
  - cbn [m_obj fst]. rewrite H1, H2. split; [apply same_refl|reflexivity].
Qed.

Lemma same_answer E p a b n : changes p = Some n -> safe_op p -> same_object a b ->
  m_res (run_op E p a) = m_res (run_op E p b).
Proof.
  intros C S SO. rewrite !(decided E p _ n C S), (look_same n a b SO).
  destruct (decide p (look n b)) as [[x ev] r]. reflexivity.
Qed.

(** of two assignments of an entry only the last counts, whatever other entries are
    changed in between *)
Theorem C96_last_assignment :
  forall E o n v w ops, dicts_ok o -> prot o = true -> n <> "protected" -> is_ok (normalize w) = true ->
  all_apart (OSet n v :: ops) -> Forall safe_op ops ->
  same_object (run E o (OSet n v :: ops ++ [OSet n w])) (run E o (ops ++ [OSet n w]))
  /\ m_res (run_op E (OSet n w) (run E o (OSet n v :: ops))) = m_res (run_op E (OSet n w) (run E o ops)).
Proof.
  intros E o n v w ops D P N OK A S.
  assert (SV : Forall safe_op (OSet n v :: ops)) by (constructor; [left; exact N|exact S]).
  assert (PM : Permutation (OSet n v :: ops) (ops ++ [OSet n v])) by apply Permutation_cons_append.
  pose proof (run_perm E _ _ PM o A SV D P) as SO.
  pose proof (run_app E) as RA.
  assert (CW : changes (OSet n w) = Some n) by (cbn [changes]; rewrite (eqb_neq_s _ _ N); reflexivity).
  assert (SW : safe_op (OSet n w)) by (left; exact N).
  assert (PO : forall l, all_apart l -> Forall safe_op l -> prot (run E o l) = true).
  { clear - P. intro l. revert o P. induction l as [|p l IH]; intros o P A S; [exact P|].
    destruct A as [[m C] [_ A]]. inversion_clear S as [|? ? S1 S2].
    apply (IH (step E o p) (step_prot E p o m C S1 P) A S2). }
  assert (AO : all_apart ops) by apply A.
  destruct (set_twice n v w (run E o ops) (PO ops AO S) N OK) as [T1 T2].
  change (OSet n v :: ops ++ [OSet n w]) with ((OSet n v :: ops) ++ [OSet n w]). rewrite !RA.
  rewrite RA in SO. cbn [run fold_left] in *. split.
  - eapply same_trans; [|exact T1].
    apply (step_same E (OSet n w) _ _ n CW SW).
    + apply run_dicts, step_dicts; exact D.
    + apply (step_dicts E _ (OSet n v)), run_dicts; exact D.
    + apply (PO (OSet n v :: ops) A SV).
    + exact SO.
  - etransitivity; [|exact T2]. apply (same_answer E (OSet n w) _ _ n CW SW). exact SO.
Qed.
Print Assumptions C96_last_assignment.

Example C96_case :
  let v := nums [1] [44100]%Z in let w := nums [1] [96000]%Z in
  same_object (run demo demo_sofa [OSet "Data_SamplingRate" v; ODel "GLOBAL_ApplicationName"; OSet "Data_SamplingRate" w])
              (run demo demo_sofa [ODel "GLOBAL_ApplicationName"; OSet "Data_SamplingRate" w])
  /\ dget "Data_SamplingRate" (pub (run demo demo_sofa [ODel "GLOBAL_ApplicationName"; OSet "Data_SamplingRate" w])) = Some w.
Proof.
  cbv zeta. assert (P : prot demo_sofa = true) by (vm_compute; reflexivity).
  split; [|vm_compute; reflexivity].
  apply (C96_last_assignment demo demo_sofa "Data_SamplingRate" (nums [1] [44100]%Z) (nums [1] [96000]%Z) [ODel "GLOBAL_ApplicationName"] demo_dicts P).
  - intro H. vm_compute in H. discriminate H.
  - vm_compute. reflexivity.
  - cbn [all_apart]. split; [eexists; vm_compute; reflexivity|]. split.
    + intros r I. destruct I as [<-|[]]. eapply apart_names; vm_compute; reflexivity.
    + split; [eexists; vm_compute; reflexivity|]. split; [intros r []|exact I].
  - repeat constructor.
Qed.
