(** C14: verifying twice gives the same result. *)
From Verif Require Import Base PyStr PyNum NdArray Sofa Verify Demo SpecAttr SpecInit SpecVerify SpecCrash
  BaseFacts ValidFacts IssueFacts DimFacts DemoFacts TwiceFacts PropVerify PropIo.
Open Scope string_scope.
Open Scope list_scope.

(** The second call leaves the object as it is and gives the result of the first
    one; if the first call added mandatory data, the only difference is that it
    has warned about this. *)
Theorem C14_same_result :
  forall E h m o, db_ok E -> db_tidy E -> db_sound E -> dicts_ok o -> no_flags o ->
  let o1 := m_obj (verify E h m o) in
  verify E h m o1 = verify E h m o
  \/ exists keys ev e w, keys <> [] /\ (forall k, In k keys <-> ~ contained o k /\ contained o1 k)
       /\ verify E h m o = (o1, ev ++ told h (added_text keys +++ w) e, answer h (added_text keys +++ w) e)
       /\ verify E h m o1 = (o1, ev ++ told h w e, answer h w e).
Proof.
  intros E h m o DB DT DS DO NF. cbv zeta. assert (D : h = HRaise \/ h <> HRaise) by (destruct h; [left; reflexivity|right; discriminate..]).
  destruct D as [->|N]; [left; apply verify_raise_twice|apply verify_second; assumption].
Qed.
Print Assumptions C14_same_result.

(** with 'raise' nothing is needed *)
Theorem C14_raise : forall E m o, verify E HRaise m (m_obj (verify E HRaise m o)) = verify E HRaise m o.
Proof. exact verify_raise_twice. Qed.
Print Assumptions C14_raise.

(** *** the demo environment is sound *)
Definition typed_default (e : entry) : bool :=
  match e_default e with
  | VStr b s => String.eqb (type_error demo "" (e_type e) (VStr b s)) ""
  | VScal (EStr s) => String.eqb (type_error demo "" (e_type e) (VStr true s)) ""
  | VScal x => String.eqb (type_error demo "" (e_type e) (VScal x)) ""
  | VArr a => String.eqb (type_error demo "" (e_type e) (VArr a)) ""
  | VList l => match np_array (VList l) with
               | Ok b => if Nat.eqb (prod (a_shape b)) 1
                         then match a_data b with
                              | x :: _ => String.eqb (type_error demo "" (e_type e) (match x with EStr s => VStr true s | _ => VScal x end)) ""
                              | [] => true
                              end
                         else String.eqb (e_type e) "double" && match a_kind b with KI | KF => true | _ => false end
               | Err _ => true
               end
  end.
Lemma typed_default_ok e w : typed_default e = true -> added_default e w -> has_type (e_type e) w.
Proof.
  unfold typed_default, added_default.
  assert (T : forall v, String.eqb (type_error demo "" (e_type e) v) "" = true -> has_type (e_type e) v).
  { intros v H. apply (type_error_iff demo ""). apply String.eqb_eq. exact H. }
  destruct (e_default e) as [b s|x|a|l].
  - intros H ->. apply T. exact H.
  - intros H Q. destruct x; subst w; apply T; exact H.
  - intros H ->. apply T. exact H.
  - intros H [b [NP [A1 A2]]]. rewrite NP in H. destruct (Nat.eqb_spec (prod (a_shape b)) 1) as [Q|Q].
    + destruct (A1 Q) as [x [t [DD ->]]]. rewrite DD in H. apply T. exact H.
    + destruct (A2 Q) as [a [-> [K _]]]. apply andb_true_iff in H. destruct H as [H1 H2]. apply String.eqb_eq in H1. rewrite H1.
      right. left. split; [reflexivity|]. right. right. exists a. split; [reflexivity|]. rewrite K. destruct (a_kind b); try discriminate H2; auto.
Qed.

Definition sofa_of (p : dict value) (cv : convention) : sofa := with_conv (with_pub empty_sofa p) cv.
Lemma names_dec (cv : convention) k e : NoDup (dkeys cv) -> dget k cv = Some e ->
  name_errors (sofa_of [(k, VStr false "")] cv) [k] = Ok "" -> name_ok (fun x => dget x cv) k (e_type e).
Proof.
  intros ND D H.
  assert (DC : forall x, declared cv (sofa_of [(k, VStr false "")] cv) x = dget x cv).
  { intro x. unfold declared, own_custom, sofa_of. cbn [custom with_conv with_pub empty_sofa]. destruct (dget x cv); reflexivity. }
  assert (R : reset_to cv (sofa_of [(k, VStr false "")] cv) (sofa_of [(k, VStr false "")] cv)).
  { constructor; [intro x; symmetry; apply DC|exact ND|reflexivity|reflexivity]. }
  assert (X := proj1 (names_iff _ _ _ R ltac:(intros x [<-|[]]; rewrite DC; cbn [fst]; congruence)) H k e).
  apply (name_ok_more (declared cv (sofa_of [(k, VStr false "")] cv))); [intros x; rewrite DC; exact (fun y => y)|].
  apply X; [left; reflexivity|rewrite DC; exact D].
Qed.

Lemma demo_sound : db_sound demo.
Proof.
  intros f k e I D M.
  assert (H : forallb (fun f => forallb (fun ke => negb (is_mandatory (e_flags (snd ke)))
      || (typed_default (snd ke)
          && match name_errors (sofa_of [(fst ke, VStr false "")] (sofar_keys (snd f))) [fst ke] with Ok t => String.eqb t "" | Err _ => false end))
    (sofar_keys (snd f))) (db demo) = true) by (vm_compute; reflexivity).
  rewrite forallb_forall in H. specialize (H f I). rewrite forallb_forall in H.
  assert (IK := dget_In _ _ _ D). specialize (H _ IK). cbn [fst snd] in H. rewrite M in H. cbn [negb orb] in H.
  apply andb_true_iff in H. destruct H as [H1 H2]. split; [intro w; apply typed_default_ok; exact H1|].
  apply names_dec; [apply AttrFacts.NoDup_sofar_keys|exact D|].
  destruct (name_errors _ _) as [t|]; [|discriminate H2]. apply String.eqb_eq in H2. rewrite H2. reflexivity.
Qed.

(** an object without sampling rate: the second call prints nothing, for the
    preliminary version both calls warn *)
Example C14_same_case :
  db_ok demo /\ db_tidy demo /\ db_sound demo /\ dicts_ok no_rate /\ no_flags no_rate
  /\ m_out (verify demo HPrint VWrite no_rate)
     = [EvPrint (warn_head +++ added_text ["Data_SamplingRate"])]
  /\ m_out (verify demo HPrint VWrite (m_obj (verify demo HPrint VWrite no_rate))) = [].
Proof.
  split; [exact demo_db_ok|]. split; [exact demo_tidy|]. split; [exact demo_sound|].
  split; [split; [apply nodupb_ok; vm_compute; reflexivity|vm_compute; exact I]|].
  split; [intros cu k e C _; vm_compute in C; discriminate C|].
  split; vm_compute; reflexivity.
Qed.
