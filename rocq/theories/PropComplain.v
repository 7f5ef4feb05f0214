(** Rejected additions say what is wrong (C113). *)
From Coq Require Import ZArith Lia.
From Verif Require Import Base PyStr PyNum NdArray Sofa Demo SpecAttr SpecInit
  BaseFacts StrFacts AttrFacts OpFacts AddDelFacts CoreFacts.
Open Scope string_scope.
Open Scope list_scope.
Open Scope nat_scope.

(** ** Statement *)

(** the name consists of a variable and an attribute *)
Definition two_parts (name var attr : string) : Prop :=
  name = var +++ "_" +++ attr /\ has_char "_" var = false /\ has_char "_" attr = false.

(** what is reported for adding the data [name] of type [t] with dimensions [d] *)
Inductive complaint (o : sofa) (name t : string) (d : option string) : string -> Prop :=
| cp_exists : hasattr o name = true -> complaint o name t d ("Entry " +++ name +++ " already exists")
| cp_type : hasattr o name = false -> t <> "attribute" -> t <> "double" -> t <> "string" ->
    complaint o name t d ("dtype is " +++ t +++ " but must be attribute, double, or string")
| cp_underscore : hasattr o name = false -> t = "double" \/ t = "string" -> has_char "_" name = true ->
    complaint o name t d "underscores '_' in the name are only allowed for attributes"
| cp_form : hasattr o name = false -> t = "attribute" -> (forall var a, ~ two_parts name var a) ->
    complaint o name t d ("The name of " +++ name +++ " must have the form VariableName_AttributeName")
| cp_variable var a : hasattr o name = false -> t = "attribute" -> two_parts name var a ->
    var <> "GLOBAL" -> ~ In var (dkeys (conv o)) ->
    complaint o name t d ("Adding Attribute " +++ name +++ " requires variable " +++ var)
| cp_dims : hasattr o name = false -> t = "double" \/ t = "string" -> has_char "_" name = false -> d = None ->
    complaint o name t d "dimensions must be provided for entries of dtype double and string".

(** ** Proofs *)
Lemma add_end name v t dd o : is_private name = false -> is_ok (normalize v) = true -> hasattr o name = false ->
  m_res (bind (match dd with
        | None => ret tt
        | Some d => mfor (filter (fun c => negb (has_char c "ERMNCIS")) (chars d))
              (fun _ => emit (EvWarn ("Added custom dimension " +++ d +++ " to SOFA object")))
        end) (fun _ => add_custom_api_entry name v dd t) o) = Ok tt.
Proof.
  intros HP HN H1. rewrite m_res_bind.
  assert (Hem : exists ev, (match dd with
        | None => ret tt
        | Some d => mfor (filter (fun c => negb (has_char c "ERMNCIS")) (chars d))
              (fun _ => emit (EvWarn ("Added custom dimension " +++ d +++ " to SOFA object")))
        end) o = (o, ev, Ok tt)).
  { destruct dd as [dd|]; [|exists []; reflexivity].
    induction (filter _ (chars dd)) as [|x l IH]; [exists []; reflexivity|].
    destruct IH as [ev IH]. cbn [mfor]. unfold bind. cbn [emit]. rewrite IH. eexists. reflexivity. }
  destruct Hem as [ev Hem]. rewrite Hem.
  destruct (add_entry_storable name v t dd o HP HN H1) as [o' H3]. rewrite H3. reflexivity.
Qed.

Lemma two_parts_count name : count_char "_" name = 1 <-> exists var a, two_parts name var a.
Proof.
  split.
  - intro C. destruct (count1_split _ C) as [var [a [-> [HV HA]]]]. exists var, a. repeat split; assumption.
  - intros [var [a [-> [HV HA]]]]. rewrite count_char_app. change ("_" +++ a) with (String "_" a). cbn [count_char].
    rewrite (proj2 (count_char_0 "_" var) HV), (proj2 (count_char_0 "_" a) HA). reflexivity.
Qed.

Lemma two_parts_once name var a var' a' : two_parts name var a -> two_parts name var' a' -> var = var' /\ a = a'.
Proof.
  intros [-> [V A]] [E [V' A']]. change (var +++ "_" +++ a) with (var +++ String "_" a) in E.
  change (var' +++ "_" +++ a') with (var' +++ String "_" a') in E. apply split_unique in E; assumption.
Qed.

Lemma complaint_once o name t d m m' : complaint o name t d m -> complaint o name t d m' -> m = m'.
Proof.
  intros A B.
  destruct A as [A1|A1 A2 A3 A4|A1 A2 A3|A1 A2 A3|v a A1 A2 A3 A4 A5|A1 A2 A3 A4];
  destruct B as [B1|B1 B2 B3 B4|B1 B2 B3|B1 B2 B3|w b B1 B2 B3 B4 B5|B1 B2 B3 B4];
    try reflexivity; try congruence;
    try (destruct A2 as [A2|A2]; congruence); try (destruct B2 as [B2|B2]; congruence).
  - destruct (A3 _ _ B3).
  - destruct (B3 _ _ A3).
  - destruct (two_parts_once _ _ _ _ _ A3 B3) as [<- _]. reflexivity.
Qed.

Lemma decided name v t d o : is_private name = false -> is_ok (normalize v) = true ->
  (m_res (add_variable name v t d o) = Ok tt /\ forall m, ~ complaint o name t d m)
  \/ exists m, add_variable name v t d o = (o, [], Err (Exn EValueError m)) /\ complaint o name t d m.
Proof.
  intros HP HN. unfold add_variable, add_entry. rewrite bind_get. cbv zeta.
  destruct (hasattr o name) eqn:H1.
  { right. eexists. split; [reflexivity|]. apply cp_exists. exact H1. }
  destruct (smem t ["attribute"; "double"; "string"]) eqn:E2; cbn [negb].
  2: { apply smem_false in E2. right. eexists. split; [reflexivity|].
       apply cp_type; [exact H1|intros ->; apply E2; cbn; tauto ..]. }
  apply smem_In in E2.
  destruct (String.eqb_spec t "attribute") as [->|NT]; cbn [negb andb].
  - rewrite andb_false_r.
    assert (FF : match d with Some _ => false | None => false end = false) by (destruct d; reflexivity). rewrite FF.
    assert (RR := add_end name v "attribute" (option_map upper d) o HP HN H1).
    destruct (Nat.eqb_spec (count_char "_" name) 1) as [C1|C1]; cbn [negb orb].
    + rewrite C1. cbn [Nat.eqb Nat.ltb Nat.leb orb]. rewrite andb_false_r.
      destruct (proj1 (two_parts_count name) C1) as [var [a T]]. assert (T' := T). destruct T' as [EN [HV HA]].
      assert (B : before_last "_" name = Some var) by (rewrite EN; apply (before_last_app _ _ _ HA)).
      assert (SG : startswith "GLOBAL_" name = true <-> var = "GLOBAL").
      { split.
        - intro S. apply prefix_spec in S. destruct S as [r S]. rewrite EN in S.
          change ("GLOBAL_" +++ r) with ("GLOBAL" +++ String "_" r) in S.
          symmetry in S. apply split_unique in S; [|exact HV|exact HA]. destruct S; auto.
        - intros ->. rewrite EN. apply prefix_spec. exists a. reflexivity. }
      assert (NO : var = "GLOBAL" \/ In var (dkeys (conv o)) -> forall m, ~ complaint o name "attribute" d m).
      { intros G m C. destruct C as [B1|B1 B2 B3 B4|B1 B2 B3|B1 B2 B3|w b B1 B2 B3 B4 B5|B1 B2 B3 B4];
          try congruence; try (destruct B2; discriminate).
        - destruct (B3 _ _ T).
        - destruct (two_parts_once _ _ _ _ _ T B3) as [<- _]. tauto. }
      unfold msg_requires. rewrite B.
      destruct (startswith "GLOBAL_" name) eqn:ES; cbn [negb andb].
      * left. split; [exact RR|]. apply NO. left. apply SG. reflexivity.
      * destruct (dmem var (conv o)) eqn:DM; cbn [negb].
        -- left. split; [exact RR|]. apply NO. right. apply dmem_In. exact DM.
        -- right. eexists. split; [reflexivity|]. apply (cp_variable _ _ _ _ var a); auto.
           ++ intro Q. apply SG in Q. discriminate Q.
           ++ apply dmem_false. exact DM.
    + right. eexists. split; [reflexivity|]. apply cp_form; auto. intros var a T. apply C1. apply two_parts_count. eauto.
  - assert (T2 : t = "double" \/ t = "string") by (destruct E2 as [<-|[<-|[<-|[]]]]; tauto).
    rewrite andb_true_r. destruct (has_char "_" name) eqn:HC.
    + right. eexists. split; [reflexivity|]. apply cp_underscore; auto.
    + destruct d as [d|].
      * left. split; [apply (add_end name v t (Some (upper d)) o HP HN H1)|].
        intros m C. destruct C as [B1|B1 B2 B3 B4|B1 B2 B3|B1 B2 B3|w b B1 B2 B3 B4 B5|B1 B2 B3 B4]; try congruence.
        destruct T2; congruence.
      * right. eexists. split; [reflexivity|]. apply cp_dims; auto.
Qed.

(** An addition is rejected without effect exactly if there is a complaint, which is the
    text of the error; there is one complaint at most. *)
Theorem C113_reasons :
  forall name v t d o, is_private name = false -> is_ok (normalize v) = true ->
  (forall msg, add_variable name v t d o = (o, [], Err (Exn EValueError msg)) <-> complaint o name t d msg)
  /\ (m_res (add_variable name v t d o) = Ok tt <-> forall msg, ~ complaint o name t d msg)
  /\ (forall m m', complaint o name t d m -> complaint o name t d m' -> m = m').
Proof.
  intros name v t d o HP HN. split; [|split; [|intros m m'; apply complaint_once]].
  - intro msg. destruct (decided name v t d o HP HN) as [[K N]|[m [K C]]].
    + split; [intro Q; unfold m_res in K; rewrite Q in K; discriminate K|intro C; destruct (N _ C)].
    + rewrite K. split; [intro Q; injection Q as <-; exact C|intro C2; rewrite (complaint_once _ _ _ _ _ _ C C2); reflexivity].
  - destruct (decided name v t d o HP HN) as [[K N]|[m [K C]]].
    + split; [intros _; exact N|intros _; exact K].
    + split; [intro Q; rewrite K in Q; discriminate Q|intro N; destruct (N _ C)].
Qed.
Print Assumptions C113_reasons.

(** attributes have no dimensions *)
Theorem C113_attributes :
  forall name v o, is_private name = false -> is_ok (normalize v) = true ->
  forall msg, add_attribute name v o = (o, [], Err (Exn EValueError msg)) <-> complaint o name "attribute" None msg.
Proof. intros name v o HP HN. apply (proj1 (C113_reasons name v "attribute" None o HP HN)). Qed.
Print Assumptions C113_attributes.

Example C113_case :
  complaint demo_sofa "Temp_Units" "attribute" None "Adding Attribute Temp_Units requires variable Temp"
  /\ complaint demo_sofa "Data_IR" "double" (Some "MRN") "Entry Data_IR already exists"
  /\ complaint demo_sofa "Temp" "double" None "dimensions must be provided for entries of dtype double and string"
  /\ (forall msg, ~ complaint demo_sofa "Temp" "double" (Some "M") msg)
  /\ add_attribute "Temp_Units" (VStr false "kelvin") demo_sofa
      = (demo_sofa, [], Err (Exn EValueError "Adding Attribute Temp_Units requires variable Temp")).
Proof.
  split. { apply (cp_variable demo_sofa "Temp_Units" "attribute" None "Temp" "Units"); [vm_compute; reflexivity|reflexivity|repeat split|discriminate|]. vm_compute. intuition discriminate. }
  split. { apply (cp_exists demo_sofa "Data_IR"). vm_compute. reflexivity. }
  split. { apply (cp_dims demo_sofa "Temp" "double" None); [vm_compute; reflexivity|left; reflexivity|reflexivity|reflexivity]. }
  split. { apply (proj1 (proj2 (C113_reasons "Temp" (zi 1%Z) "double" (Some "M") demo_sofa eq_refl eq_refl))). vm_compute. reflexivity. }
  apply C113_attributes; [reflexivity|reflexivity|].
  apply (cp_variable demo_sofa "Temp_Units" "attribute" None "Temp" "Units"); [vm_compute; reflexivity|reflexivity|repeat split|discriminate|]. vm_compute. intuition discriminate.
Qed.
