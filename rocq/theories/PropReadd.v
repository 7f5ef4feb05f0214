(** C59: custom entries that are deleted. *)
From Verif Require Import Base PyStr PyNum NdArray Sofa Verify Upgrade Utils Io Demo
  SpecAttr SpecInit SpecValue SpecVerify SpecUpgrade SpecEquals SpecIo
  BaseFacts StrFacts AttrFacts OpFacts InitFacts ProtFacts AddDelFacts MissingFacts CoreFacts IssueFacts ValidFacts VerifyFacts
  DictFacts DimFacts DemoFacts WriteFacts ReadFacts IoFacts PropVerify PropIo PropAttr.
From Coq Require Import ZArith.
Open Scope string_scope.
Open Scope list_scope.

(** ** Calls that do not notice which entries are declared *)

(** the call gives the same output and result and the same object; or the
    convention can not be loaded and both objects are left as they are *)
Definition unnoticed {A} (f : M A) (o o2 : sofa) : Prop :=
  f o2 = f o \/ exists ev e, f o = (o, ev, Err e) /\ f o2 = (o2, ev, Err e).

Lemma reset_unnoticed E o c : unnoticed (reset_convention E) o (with_conv o c).
Proof.
  unfold unnoticed, reset_convention.
  change (getattr (with_conv o c)) with (getattr o). change (custom (with_conv o c)) with (custom o).
  destruct (getattr o "GLOBAL_SOFAConventions") as [x|e]; [|right; do 2 eexists; split; reflexivity].
  destruct (getattr o "GLOBAL_SOFAConventionsVersion") as [v|e]; [|right; do 2 eexists; split; reflexivity].
  destruct (as_str x) as [n|]; [|right; do 2 eexists; split; reflexivity].
  destruct (let? _ := _ in _) as [cv|e]; [|right; do 2 eexists; split; reflexivity].
  left. destruct (custom o); reflexivity.
Qed.

Lemma bind_unnoticed {A B} (f : M A) (g : A -> M B) o o2 : unnoticed f o o2 -> unnoticed (bind f g) o o2.
Proof.
  intros [H|[ev [e [H1 H2]]]]; unfold unnoticed, bind; [left; rewrite H; reflexivity|].
  right. exists ev, e. rewrite H1, H2. auto.
Qed.

Lemma verify_unnoticed E h m o c : unnoticed (verify E h m) o (with_conv o c).
Proof.
  unfold verify. assert (X := bind_unnoticed (reset_convention E) (fun _ => verify_rest (normative_keys E) E h m) _ _ (reset_unnoticed E o c)).
  exact X.
Qed.
Lemma add_missing_unnoticed E m p b o c : unnoticed (add_missing E m p b) o (with_conv o c).
Proof. apply bind_unnoticed. apply reset_unnoticed. Qed.
Lemma update_dimensions_unnoticed E o c : unnoticed (update_dimensions E) o (with_conv o c).
Proof. apply bind_unnoticed. apply verify_unnoticed. Qed.
Lemma get_dimension_unnoticed E d o c : unnoticed (get_dimension E d) o (with_conv o c).
Proof. apply bind_unnoticed. apply update_dimensions_unnoticed. Qed.
Lemma list_dimensions_unnoticed E o c : unnoticed (list_dimensions E) o (with_conv o c).
Proof. apply bind_unnoticed. apply update_dimensions_unnoticed. Qed.
Lemma inspect_unnoticed E h o c : unnoticed (inspect E h) o (with_conv o c).
Proof. apply bind_unnoticed. apply verify_unnoticed. Qed.

(** the same for computations that look at nothing but the public data *)
Definition public_only {A} (f : M A) : Prop :=
  forall o c, exists ev r, f o = (o, ev, r) /\ f (with_conv o c) = (with_conv o c, ev, r).
Lemma po_bind {A B} (f : M A) (g : A -> M B) : public_only f -> (forall a, public_only (g a)) -> public_only (bind f g).
Proof.
  intros F G o c. destruct (F o c) as [ev [r [F1 F2]]]. unfold bind. rewrite F1, F2. destruct r as [a|e]; [|eauto].
  destruct (G a o c) as [ev2 [r2 [G1 G2]]]. rewrite G1, G2. eauto.
Qed.
Lemma po_const {A} ev (r : res A) : public_only (fun o => (o, ev, r)).
Proof. intros o c. eauto. Qed.
Lemma po_mfor l : public_only (mfor l emit).
Proof. intros o c. exists l, (Ok tt). rewrite !mfor_emit. auto. Qed.
Lemma po_look {A} (f : sofa -> M A) : (forall o, public_only (f o)) -> (forall o c, f (with_conv o c) = f o) -> public_only (bind get f).
Proof. intros H Q o c. rewrite !bind_get, Q. apply H. Qed.

Lemma warn_version_public E : public_only (warn_version E).
Proof.
  unfold warn_version. apply po_look; [|reflexivity]. intro o.
  apply po_bind; [apply po_const|]. intros [b c|e|a|l]; try apply po_const.
  destruct (String.eqb c "invalid-value"); [apply po_const|].
  destruct (sofa_init E c false "latest" VAuto) as [ev r].
  apply po_bind; [apply po_mfor|]. intros _. apply po_bind; [apply po_const|]. intro l.
  apply po_bind; [apply po_const|]. intro la. apply po_bind; [apply po_const|]. intro cu.
  destruct cu; try apply po_const. destruct la; try apply po_const.
  apply po_bind; [apply po_const|]. intros []; apply po_const.
Qed.

Lemma prepare_write_unnoticed E name o c : unnoticed (prepare_write E name) o (with_conv o c).
Proof.
  unfold prepare_write. destruct (sofa_path name) as [p|e]; [|right; do 2 eexists; split; reflexivity].
  unfold unnoticed. rewrite !bind_lift. destruct (warn_version_public E o c) as [ev [r [W1 W2]]].
  unfold bind at 1 3 5 7. rewrite W1, W2. destruct r as [u|e]; [|right; eauto].
  destruct (bind_unnoticed _ (fun _ => ret p) _ _ (verify_unnoticed E HRaise VWrite o c)) as [H|[ev2 [e [H1 H2]]]].
  - left. rewrite H. reflexivity.
  - right. exists (ev ++ ev2), e. rewrite H1, H2. auto.
Qed.

(** the same file is written *)
Definition unnoticed_file (E : env) (name : string) (s : fs) (o o2 : sofa) : Prop :=
  write_sofa E name o2 s = write_sofa E name o s
  \/ exists ev e, write_sofa E name o s = (s, (o, ev, Err e)) /\ write_sofa E name o2 s = (s, (o2, ev, Err e)).
Lemma write_unnoticed E name s o c : unnoticed_file E name s o (with_conv o c).
Proof.
  unfold unnoticed_file, write_sofa. destruct (prepare_write_unnoticed E name o c) as [->|[ev [e [H1 H2]]]]; [left; reflexivity|].
  right. exists ev, e. rewrite H1, H2. auto.
Qed.

(** ** The object after adding and deleting *)
Lemma ddel_last {A} k (e : A) c : ~ In k (dkeys c) -> ddel k (c ++ [(k, e)]) = c.
Proof.
  induction c as [|[j x] c IH]; intro N; cbn [app ddel].
  - rewrite eqb_refl_s. reflexivity.
  - destruct (String.eqb_spec k j) as [->|NE]; [exfalso; apply N; left; reflexivity|].
    f_equal. apply IH. intro I. apply N. right. exact I.
Qed.

Lemma added_and_deleted k v t d o o1 o2 ev1 ev2 u1 u2 :
  is_private k = false -> prot o = true -> ~ In k (dkeys (conv o)) -> (forall cu, custom o = Some cu -> ~ In k (dkeys cu)) ->
  add_entry k v t d o = (o1, ev1, Ok u1) -> del_attr k o1 = (o2, ev2, Ok u2) ->
  exists e, o2 = with_custom (with_conv o (conv o ++ [(k, e)])) (Some match custom o with Some cu => cu | None => [] end).
Proof.
  intros HP PO NC NU A D.
  destruct (add_entry_cases k v t d o) as [[e [K _]]|[H1 [ev' [oo [r [H2 K]]]]]]; rewrite K in A; [discriminate A|].
  injection A as -> _ ->.
  assert (HN : ~ In k (dkeys (pub o))).
  { intro C. apply dmem_In in C. unfold hasattr in H1. rewrite C in H1. discriminate. }
  rewrite add_custom_obj in H2.
  assert (DM : dmem k (conv o) = false) by (apply dmem_false; exact NC). rewrite DM in H2.
  match type of H2 with context [set_attr k v ?x] => set (o3 := x) in H2 end.
  destruct (set_attr k v o3) as [[o4 e4] [[]|x]] eqn:ES; [|discriminate H2].
  apply set_attr_Ok in ES; [|intros ->; unfold hasattr in H1; rewrite orb_true_r in H1; discriminate].
  destruct ES as [w [W1 [W2 W3]]]. injection H2 as H2.
  set (cu := match custom o with Some c => c | None => [] end) in *.
  assert (NU' : ~ In k (dkeys cu)) by (unfold cu; destruct (custom o) as [c|]; [apply NU; reflexivity|intros []]).
  destruct (del_attr_cases k o1) as [[e Q]|[K1 [_ [_ Q]]]]; rewrite Q in D; [discriminate D|]. injection D as <- _ _.
  rewrite <- H2, W2. unfold o3. cbn [with_prot with_pub with_conv with_custom pub conv custom ro prot dims api].
  match goal with |- context [option_map (ddel k) (Some (dset k ?x cu))] => set (e0 := x) end.
  rewrite (dset_new k w (pub o) HN), (ddel_last k w (pub o) HN), (dset_new k e0 (conv o) NC), (dset_new k e0 cu NU').
  unfold option_map. rewrite (ddel_last k e0 cu NU').
  exists e0. destruct o. cbn in *. subst. reflexivity.
Qed.

(** ** C59 *)

(** Missing: the first custom entry of an object and calls of [add_variable] and
    [add_attribute] for the same name without verifying before, [C59_refuted]. *)
Theorem C59_no_trace_partial :
  forall k v t d o o1 o2 ev1 ev2 u1 u2 cu,
  is_private k = false -> prot o = true -> ~ In k (dkeys (conv o)) ->
  custom o = Some cu -> ~ In k (dkeys cu) ->
  add_entry k v t d o = (o1, ev1, Ok u1) -> del_attr k o1 = (o2, ev2, Ok u2) ->
  pub o2 = pub o /\ custom o2 = custom o /\ ro o2 = ro o /\ prot o2 = prot o /\ dims o2 = dims o /\ api o2 = api o
  /\ forall E,
     (forall h m, unnoticed (verify E h m) o o2)
     /\ (forall m p b, unnoticed (add_missing E m p b) o o2)
     /\ (forall x, unnoticed (get_dimension E x) o o2)
     /\ unnoticed (list_dimensions E) o o2
     /\ (forall f, unnoticed (inspect E f) o o2)
     /\ (forall name s, unnoticed_file E name s o o2).
Proof.
  intros k v t d o o1 o2 ev1 ev2 u1 u2 cu HP PO NC CU NU A D.
  destruct (added_and_deleted k v t d o o1 o2 ev1 ev2 u1 u2 HP PO NC) as [e Q]; [|exact A|exact D|].
  { intros c Hc. rewrite CU in Hc. injection Hc as <-. exact NU. }
  rewrite CU in Q.
  assert (Q' : o2 = with_conv o (conv o ++ [(k, e)])) by (rewrite Q; destruct o; cbn in *; subst; reflexivity).
  rewrite Q'. repeat (split; [reflexivity|]). intro E.
  split; [intros; apply verify_unnoticed|]. split; [intros; apply add_missing_unnoticed|].
  split; [intros; apply get_dimension_unnoticed|]. split; [apply list_dimensions_unnoticed|].
  split; [intros; apply inspect_unnoticed|intros; apply write_unnoticed].
Qed.
Print Assumptions C59_no_trace_partial.

(** the first custom entry: public data and everything else but the record of
    custom data are as before *)
Theorem C59_first_entry_partial :
  forall k v t d o o1 o2 ev1 ev2 u1 u2,
  is_private k = false -> prot o = true -> ~ In k (dkeys (conv o)) -> custom o = None ->
  add_entry k v t d o = (o1, ev1, Ok u1) -> del_attr k o1 = (o2, ev2, Ok u2) ->
  pub o2 = pub o /\ custom o2 = Some [] /\ ro o2 = ro o /\ prot o2 = prot o /\ dims o2 = dims o /\ api o2 = api o.
Proof.
  intros k v t d o o1 o2 ev1 ev2 u1 u2 HP PO NC CU A D.
  destruct (added_and_deleted k v t d o o1 o2 ev1 ev2 u1 u2 HP PO NC) as [e Q]; [|exact A|exact D|].
  { intros c Hc. rewrite CU in Hc. discriminate Hc. }
  rewrite CU in Q. rewrite Q. repeat (split; [reflexivity|]). reflexivity.
Qed.
Print Assumptions C59_first_entry_partial.

Definition with_note : sofa := m_obj (add_attribute "GLOBAL_Note" (VStr false "by hand") demo_sofa).
Example C59_case :
  prot with_note = true /\ dmem "Temp" (conv with_note) = false /\ option_map dkeys (custom with_note) = Some ["GLOBAL_Note"]
  /\ (let o1 := m_obj (add_variable "Temp" (zl [1; 2]%Z) "double" (Some "MR") with_note) in
      m_res (add_variable "Temp" (zl [1; 2]%Z) "double" (Some "MR") with_note) = Ok tt
      /\ dmem "Temp" (pub o1) = true /\ m_res (del_attr "Temp" o1) = Ok tt
      /\ m_res (verify demo HRaise VWrite (m_obj (del_attr "Temp" o1))) = Ok None).
Proof. repeat split; vm_compute; reflexivity. Qed.

(** adding the entry again breaks the object; adding and deleting the first
    custom entry of an object with a preliminary convention makes [verify] warn
    once more *)
Definition preliminary : sofa := match snd (sofa_init demo "SimpleFreeFieldHRIR" false "0.4" VNo) with Ok o => o | Err _ => empty_sofa end.
Definition m_events {A} (x : sofa * list event * res A) : list event := snd (fst x).
Theorem C59_refuted :
  let f := add_variable "Temp" (nums [1; 1] [1%Z]) "double" (Some "IM") in
  (m_res (verify demo HRaise VWrite (m_obj (f with_note))) = Ok None
   /\ exists t, m_res (verify demo HRaise VWrite (m_obj (f (m_obj (del_attr "Temp" (m_obj (f with_note)))))))
                = Err (Exn EKeyError t))
  /\ (let o2 := m_obj (del_attr "Temp" (m_obj (f preliminary))) in
      snd (sofa_init demo "SimpleFreeFieldHRIR" false "0.4" VNo) = Ok preliminary
      /\ m_res (del_attr "Temp" (m_obj (f preliminary))) = Ok tt
      /\ m_res (verify demo HReturn VRead o2) = m_res (verify demo HReturn VRead preliminary)
      /\ m_events (verify demo HReturn VRead o2)
         = EvWarn (msg_preliminary "0.4") :: m_events (verify demo HReturn VRead preliminary)).
Proof.
  cbv zeta. split; [split; [vm_compute; reflexivity|]; eexists; vm_compute; reflexivity|].
  repeat (split; [vm_compute; reflexivity|]). vm_compute. reflexivity.
Qed.
Print Assumptions C59_refuted.
