(** C78: assigned lists are copied and assigned arrays are shared. *)
From Verif Require Import Base BaseFacts NdArray Copy SpecCopy CopyFacts Alias SpecAlias AliasFacts AliasRun.
From Coq Require Import ZArith.
Open Scope string_scope.
Open Scope list_scope.
Open Scope nat_scope.

(** ** C78 Different Sofa objects are independent *)

(** If a program does not assign an array that is part of another object, its
    objects share nothing, every operation changes one object at most, and
    operations other than writing into an array change only the object they name. *)
Theorem C78_one_object_partial : forall ops m op,
  careful_run start ops m -> careful m op ->
  separate m /\ separate (perform m op) /\
  (exists i, forall k, k <> i -> content_kept m (perform m op) k) /\
  ((forall j pos e, op <> OWrite j pos e) -> forall k, ~ names op k -> content_kept m (perform m op) k) /\
  (forall j pos e r k, op = OWrite j pos e -> holds m j r ->
     (forall l, object m k l -> ~ shares (m_heap m) (RLoc l) r) -> content_kept m (perform m op) k).
Proof.
  intros ops m op R CA. destruct (careful_good _ _ _ R start_good separate_start) as [G [SEP _]].
  destruct (one_object m op G SEP) as [K1 K2].
  split; [exact SEP|]. split; [exact (separate_step m op G SEP CA)|]. split; [|split].
  - assert (NMD : (exists i, forall k, names op k -> k = i) \/ exists j pos e, op = OWrite j pos e).
    { destruct op; try (left; exists 0; intros q F; exact (False_ind _ F)); try (left; exists i; intros q E; exact (eq_sym E)). }
    destruct NMD as [[i NI]|[j [pos [e ->]]]]; [|exact (one_write m j pos e G SEP)].
    destruct op as [d|v|j shape sel|i0 name|i0 name j|i0 name|i0|j pos e|j pos y]; try exact (one_write m j pos e G SEP);
      (exists i; intros q N; apply K1; [intro NM; apply N, NI, NM|intros ? ? ? E; discriminate E]).
  - intros NW k NM. exact (K1 k NM NW).
  - intros j pos e r k E H NS. exact (K2 j pos e E k r H NS).
Qed.
Print Assumptions C78_one_object_partial.

(** New objects and copies share nothing with the other objects and the values of
    the program. If nothing is taken out of an object and no array is assigned to
    it, this stays so: only assigning to it and deleting from it changes it. In
    particular, changes of a list after it was assigned do not matter. *)
Theorem C78_lists_are_copied : forall ops m op ops' m', let i := List.length (m_objs m) in
  careful_run start ops m -> creates m op -> discreet_run i (perform m op) ops' m' ->
  (exists l, object m' i l) /\ hidden m' i /\
  forall op', ~ names op' i -> content_kept m' (perform m' op') i.
Proof.
  intros ops m op ops' m' i R CR D. destruct (careful_good _ _ _ R start_good separate_start) as [G [SEP _]].
  assert (OP : match op with ONew _ | OCopy _ => True | _ => False end) by (destruct op; try exact I; exact CR).
  assert (CA : careful m op) by (destruct op; exact I || contradiction).
  assert (G1 := perform_good m op G). assert (S1 := separate_step m op G SEP CA). assert (H1 := new_hidden m op G SEP OP).
  assert (O1 : exists l, object (perform m op) i l).
  { destruct (nth_error (m_objs (perform m op)) i) as [l|] eqn:E; [exists l; exact E|]. apply nth_error_None in E.
    destruct op; try contradiction; cbn [creates] in CR; unfold i in E; lia. }
  fold i in H1. clear CR CA OP. revert O1 G1 S1 H1. induction D as [m1|m1 op1 ops1 m2 CA DI D IH]; intros O1 G1 S1 H1.
  - split; [exact O1|]. split; [exact H1|]. intros op' NM. exact (hidden_kept m1 op' i G1 S1 H1 NM).
  - apply IH; [|exact (perform_good m1 op1 G1)|exact (separate_step m1 op1 G1 S1 CA)|exact (hidden_step m1 op1 i G1 S1 CA DI H1)].
    destruct O1 as [l O1]. exists l. destruct (perform_effect m1 op1 G1); try exact O1. unfold object. cbn [m_objs].
    rewrite nth_error_app1 by exact (nth_some _ _ _ O1). exact O1.
Qed.
Print Assumptions C78_lists_are_copied.

(** The assigned entry has the value described by C05, and the other entries of
    the object keep their values. *)
Theorem C78_assigned_value : forall ops m i name j r v w l, careful_run start ops m ->
  object m i l -> holds m j r -> value_of (S (List.length (m_heap m))) (m_heap m) r = Some v -> normalize v = Ok w ->
  (exists w', entry (perform m (OAssign i name j)) i name w' /\ same_value w w') /\
  forall other u, other <> name -> entry m i other u -> entry (perform m (OAssign i name j)) i other u.
Proof.
  intros ops m i name j r v w l R O H V NV. destruct (careful_good _ _ _ R start_good separate_start) as [G [SEP _]].
  exact (assigned_value m i name j r v w l G O H V NV).
Qed.
Print Assumptions C78_assigned_value.

(** The full claim fails: arrays are stored without copying them. *)
Definition two_objects : list mop :=
  [ ONew [("Data_IR", VScal (EInt 0%Z))]; ONew [("Data_IR", VScal (EInt 0%Z))];
    OValue (VArr (Arr KI [1; 3] [EInt 1%Z; EInt 2%Z; EInt 3%Z] false));
    OAssign 0 "Data_IR" 0; OAssign 1 "Data_IR" 0 ].
Theorem C78_refuted :
  let m := perform_all start two_objects in let m' := perform m (OWrite 0 1 (EInt 9%Z)) in
  entry m 0 "Data_IR" (VArr (Arr KI [1; 3] [EInt 1%Z; EInt 2%Z; EInt 3%Z] false)) /\
  entry m 1 "Data_IR" (VArr (Arr KI [1; 3] [EInt 1%Z; EInt 2%Z; EInt 3%Z] false)) /\
  entry m' 0 "Data_IR" (VArr (Arr KI [1; 3] [EInt 1%Z; EInt 9%Z; EInt 3%Z] false)) /\
  entry m' 1 "Data_IR" (VArr (Arr KI [1; 3] [EInt 1%Z; EInt 9%Z; EInt 3%Z] false)).
Proof.
  cbn zeta. repeat match goal with |- _ /\ _ => split end;
    (eexists _, _, _; split; [vm_compute; reflexivity|split; [vm_compute; reflexivity|split; [vm_compute; reflexivity|exists 1; vm_compute; reflexivity]]]).
Qed.
Print Assumptions C78_refuted.

(** ** Examples *)

(** a decision procedure for lists *)
Lemma not_array_held m j r l rs : holds m j r -> r = RLoc l -> nth_error (m_heap m) l = Some (CList rs) ->
  forall r', holds m j r' -> ~ is_array (m_heap m) r'.
Proof.
  intros H -> G r' H' [x [k [s [ix [w [b [-> G']]]]]]]. unfold holds in H, H'. rewrite H in H'. injection H' as <-.
  rewrite G in G'. discriminate G'.
Qed.

(** An object and its copy; a list is assigned to both and changed afterwards. *)
Definition lists : list mop :=
  [ ONew [("Data_IR", VScal (EInt 0%Z)); ("GLOBAL_Title", VStr false "HRIRs")]; OCopy 0;
    OValue (VList [VScal (EInt 1%Z); VScal (EInt 2%Z)]); OValue (VScal (EInt 7%Z));
    OAssign 0 "Data_IR" 0; OAssign 1 "Data_IR" 0; OPut 0 1 1 ].
Example C78_case :
  let m := perform_all start lists in
  careful_run start lists m /\ creates (perform_all start (firstn 1 lists)) (OCopy 0) /\
  discreet_run 1 (perform_all start (firstn 2 lists)) (skipn 2 lists) m /\
  (exists r, holds m 0 r /\ value_of 3 (m_heap m) r = Some (VList [VScal (EInt 1%Z); VScal (EInt 7%Z)])) /\
  entry m 0 "Data_IR" (VArr (Arr KI [1; 2] [EInt 1%Z; EInt 2%Z] false)) /\
  entry m 1 "Data_IR" (VArr (Arr KI [1; 2] [EInt 1%Z; EInt 2%Z] false)) /\
  entry m 1 "GLOBAL_Title" (VStr false "HRIRs").
Proof.
  cbn zeta.
  assert (N4 : forall r, holds (perform_all start (firstn 4 lists)) 0 r -> ~ is_array (m_heap (perform_all start (firstn 4 lists))) r).
  { eapply not_array_held; [vm_compute; reflexivity|reflexivity|vm_compute; reflexivity]. }
  assert (N5 : forall r, holds (perform_all start (firstn 5 lists)) 0 r -> ~ is_array (m_heap (perform_all start (firstn 5 lists))) r).
  { eapply not_array_held; [vm_compute; reflexivity|reflexivity|vm_compute; reflexivity]. }
  assert (E : forall i n v, (exists l d r, nth_error (m_objs (perform_all start lists)) i = Some l /\
      nth_error (m_heap (perform_all start lists)) l = Some (CMap TInstance d) /\ dget n d = Some r /\ value_of 1 (m_heap (perform_all start lists)) r = Some v) ->
      entry (perform_all start lists) i n v).
  { intros i n v [l [d [r [A [B [C D]]]]]]. exists l, d, r. split; [exact A|split; [exact B|split; [exact C|exists 1; exact D]]]. }
  split; [|split; [|split; [|split; [|split; [|split]]]]].
  - repeat (apply careful_cons; [first [exact I|intros k l r _ _ H AR; exfalso; first [exact (N4 r H AR)|exact (N5 r H AR)]]|]). apply careful_nil.
  - vm_compute. reflexivity.
  - repeat (apply discreet_cons; [first [exact I|intros k l r _ _ H AR; exfalso; first [exact (N4 r H AR)|exact (N5 r H AR)]]
                                 |first [exact I|intros _ r H; first [exact (N4 r H)|exact (N5 r H)]]|]). apply discreet_nil.
  - eexists. split; vm_compute; reflexivity.
  - apply E. eexists _, _, _. split; [vm_compute; reflexivity|split; [vm_compute; reflexivity|split; vm_compute; reflexivity]].
  - apply E. eexists _, _, _. split; [vm_compute; reflexivity|split; [vm_compute; reflexivity|split; vm_compute; reflexivity]].
  - apply E. eexists _, _, _. split; [vm_compute; reflexivity|split; [vm_compute; reflexivity|split; vm_compute; reflexivity]].
Qed.
